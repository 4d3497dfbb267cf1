(** lib/block/skipjack.c *)
From Coq Require Import NArith Arith List Bool.
From Verif Require Import Lib.Word Lib.Res Model.LoadStore Model.BlockApi Model.Table Lib.Bytes Lib.Bij.
Import ListNotations.
Local Open Scope N_scope.

(** skipjack.c:29-33 *)
Definition skipjack := list N.

(** skipjack.c:35-69 *)
Definition sj_s : list N :=
  [0xA3; 0xD7; 0x09; 0x83; 0xF8; 0x48; 0xF6; 0xF4; 0xB3; 0x21; 0x15; 0x78; 0x99; 0xB1; 0xAF; 0xF9;
   0xE7; 0x2D; 0x4D; 0x8A; 0xCE; 0x4C; 0xCA; 0x2E; 0x52; 0x95; 0xD9; 0x1E; 0x4E; 0x38; 0x44; 0x28;
   0x0A; 0xDF; 0x02; 0xA0; 0x17; 0xF1; 0x60; 0x68; 0x12; 0xB7; 0x7A; 0xC3; 0xE9; 0xFA; 0x3D; 0x53;
   0x96; 0x84; 0x6B; 0xBA; 0xF2; 0x63; 0x9A; 0x19; 0x7C; 0xAE; 0xE5; 0xF5; 0xF7; 0x16; 0x6A; 0xA2;
   0x39; 0xB6; 0x7B; 0x0F; 0xC1; 0x93; 0x81; 0x1B; 0xEE; 0xB4; 0x1A; 0xEA; 0xD0; 0x91; 0x2F; 0xB8;
   0x55; 0xB9; 0xDA; 0x85; 0x3F; 0x41; 0xBF; 0xE0; 0x5A; 0x58; 0x80; 0x5F; 0x66; 0x0B; 0xD8; 0x90;
   0x35; 0xD5; 0xC0; 0xA7; 0x33; 0x06; 0x65; 0x69; 0x45; 0x00; 0x94; 0x56; 0x6D; 0x98; 0x9B; 0x76;
   0x97; 0xFC; 0xB2; 0xC2; 0xB0; 0xFE; 0xDB; 0x20; 0xE1; 0xEB; 0xD6; 0xE4; 0xDD; 0x47; 0x4A; 0x1D;
   0x42; 0xED; 0x9E; 0x6E; 0x49; 0x3C; 0xCD; 0x43; 0x27; 0xD2; 0x07; 0xD4; 0xDE; 0xC7; 0x67; 0x18;
   0x89; 0xCB; 0x30; 0x1F; 0x8D; 0xC6; 0x8F; 0xAA; 0xC8; 0x74; 0xDC; 0xC9; 0x5D; 0x5C; 0x31; 0xA4;
   0x70; 0x88; 0x61; 0x2C; 0x9F; 0x0D; 0x2B; 0x87; 0x50; 0x82; 0x54; 0x64; 0x26; 0x7D; 0x03; 0x40;
   0x34; 0x4B; 0x1C; 0x73; 0xD1; 0xC4; 0xFD; 0x3B; 0xCC; 0xFB; 0x7F; 0xAB; 0xE6; 0x3E; 0x5B; 0xA5;
   0xAD; 0x04; 0x23; 0x9C; 0x14; 0x51; 0x22; 0xF0; 0x29; 0x79; 0x71; 0x7E; 0xFF; 0x8C; 0x0E; 0xE2;
   0x0C; 0xEF; 0xBC; 0x72; 0x75; 0x6F; 0x37; 0xA1; 0xEC; 0xD3; 0x8E; 0x62; 0x8B; 0x86; 0x10; 0xE8;
   0x08; 0x77; 0x11; 0xBE; 0x92; 0x4F; 0x24; 0xC5; 0x32; 0x36; 0x9D; 0xCF; 0xF3; 0xA6; 0xBB; 0xAC;
   0x5E; 0x6C; 0xA9; 0x13; 0x57; 0x25; 0xB5; 0xE3; 0xBD; 0xA8; 0x3A; 0x01; 0x05; 0x59; 0x2A; 0x46].

(** skipjack.c:71-77.  X is a uint16_t, so X >> 8 is a byte. *)
Definition sj_hi (k x : N) : N := N.lxor x (wshl 16 (tab8 sj_s (N.lxor (byte x) k)) 8).
Definition sj_lo (k x : N) : N := N.lxor x (tab8 sj_s (N.lxor (wshr x 8) k)).
Definition sj_g (k0 k1 k2 k3 x : N) : N := sj_lo k3 (sj_hi k2 (sj_lo k1 (sj_hi k0 x))).
(** skipjack.c:79-85 *)
Definition sj_ig (k0 k1 k2 k3 x : N) : N := sj_hi k0 (sj_lo k1 (sj_hi k2 (sj_lo k3 x))).

(** The statements of the two functions: [SG x k0 k1 k2 k3] is G(x, ..) (IG in the
    decryption), [SX d s c] is x_d ^= x_s ^ c.  The register numbers and the key
    indices are constants inside the arrays of 4 and 10. *)
Inductive sj_stmt := SG (x k0 k1 k2 k3 : nat) | SX (d s : nat) (c : N).
Definition sj_exec (g : N -> N -> N -> N -> N -> N) (k : skipjack) (st : sj_stmt) (x : list N) : list N :=
  match st with
  | SG d k0 k1 k2 k3 => upd x d (g (nth k0 k 0) (nth k1 k 0) (nth k2 k 0) (nth k3 k 0) (nth d x 0))
  | SX d s c => upd x d (N.lxor (nth d x 0) (N.lxor (nth s x 0) c))
  end.

(** skipjack.c:94-132 *)
Definition sj_enc : list sj_stmt :=
  [SG 0 0 1 2 3; SX 3 0 1; SG 3 4 5 6 7; SX 2 3 2;
   SG 2 8 9 0 1; SX 1 2 3; SG 1 2 3 4 5; SX 0 1 4;
   SG 0 6 7 8 9; SX 3 0 5; SG 3 0 1 2 3; SX 2 3 6;
   SG 2 4 5 6 7; SX 1 2 7; SG 1 8 9 0 1; SX 0 1 8;
   SX 1 0 9; SG 0 2 3 4 5; SX 0 3 10; SG 3 6 7 8 9;
   SX 3 2 11; SG 2 0 1 2 3; SX 2 1 12; SG 1 4 5 6 7;
   SX 1 0 13; SG 0 8 9 0 1; SX 0 3 14; SG 3 2 3 4 5;
   SX 3 2 15; SG 2 6 7 8 9; SX 2 1 16; SG 1 0 1 2 3;
   SG 0 4 5 6 7; SX 3 0 17; SG 3 8 9 0 1; SX 2 3 18;
   SG 2 2 3 4 5; SX 1 2 19; SG 1 6 7 8 9; SX 0 1 20;
   SG 0 0 1 2 3; SX 3 0 21; SG 3 4 5 6 7; SX 2 3 22;
   SG 2 8 9 0 1; SX 1 2 23; SG 1 2 3 4 5; SX 0 1 24;
   SX 1 0 25; SG 0 6 7 8 9; SX 0 3 26; SG 3 0 1 2 3;
   SX 3 2 27; SG 2 4 5 6 7; SX 2 1 28; SG 1 8 9 0 1;
   SX 1 0 29; SG 0 2 3 4 5; SX 0 3 30; SG 3 6 7 8 9;
   SX 3 2 31; SG 2 0 1 2 3; SX 2 1 32; SG 1 4 5 6 7].
(** skipjack.c:147-185 *)
Definition sj_dec : list sj_stmt :=
  [SG 1 4 5 6 7; SX 2 1 32; SG 2 0 1 2 3; SX 3 2 31;
   SG 3 6 7 8 9; SX 0 3 30; SG 0 2 3 4 5; SX 1 0 29;
   SG 1 8 9 0 1; SX 2 1 28; SG 2 4 5 6 7; SX 3 2 27;
   SG 3 0 1 2 3; SX 0 3 26; SG 0 6 7 8 9; SX 1 0 25;
   SX 0 1 24; SG 1 2 3 4 5; SX 1 2 23; SG 2 8 9 0 1;
   SX 2 3 22; SG 3 4 5 6 7; SX 3 0 21; SG 0 0 1 2 3;
   SX 0 1 20; SG 1 6 7 8 9; SX 1 2 19; SG 2 2 3 4 5;
   SX 2 3 18; SG 3 8 9 0 1; SX 3 0 17; SG 0 4 5 6 7;
   SG 1 0 1 2 3; SX 2 1 16; SG 2 6 7 8 9; SX 3 2 15;
   SG 3 2 3 4 5; SX 0 3 14; SG 0 8 9 0 1; SX 1 0 13;
   SG 1 4 5 6 7; SX 2 1 12; SG 2 0 1 2 3; SX 3 2 11;
   SG 3 6 7 8 9; SX 0 3 10; SG 0 2 3 4 5; SX 1 0 9;
   SX 0 1 8; SG 1 8 9 0 1; SX 1 2 7; SG 2 4 5 6 7;
   SX 2 3 6; SG 3 0 1 2 3; SX 3 0 5; SG 0 6 7 8 9;
   SX 0 1 4; SG 1 2 3 4 5; SX 1 2 3; SG 2 8 9 0 1;
   SX 2 3 2; SG 3 4 5 6 7; SX 3 0 1; SG 0 0 1 2 3].

(** x0 is loaded from the last two bytes, x3 from the first (skipjack.c:89-92) *)
Definition sj_load (b : list N) : list N := [load16l b 6; load16l b 4; load16l b 2; load16l b 0].
Definition sj_store (x : list N) : list N :=
  store16l (nth 3 x 0) ++ store16l (nth 2 x 0) ++ store16l (nth 1 x 0) ++ store16l (nth 0 x 0).

(** skipjack.c:87-138 *)
Definition skipjack_encrypt (s : skipjack) (pt : list N) : res (list N) :=
  Ok (sj_store (prun (sj_exec sj_g s) sj_enc (sj_load pt))).
(** skipjack.c:140-191 *)
Definition skipjack_decrypt (s : skipjack) (ct : list N) : res (list N) :=
  Ok (sj_store (prun (sj_exec sj_ig s) sj_dec (sj_load ct))).

(** skipjack.c:193-215: k[9 - i] = key[i], the rest is zero *)
Definition skipjack_setup (key : list N) : skipjack := map (fun i => nth (9 - i) key 0) (seq 0 10).

Definition skipjack_maxkey : nat := 10.
(** skipjack.c:217-231 *)
Definition skipjack_create (r : N) (key : list N) : res skipjack :=
  assert_ (key_len_ok skipjack_maxkey key) (assert_ ((r =? 0) || (r =? 32)) (Ok (skipjack_setup key))).
(** skipjack.c:193-215 *)
Definition skipjack_recreate (s : skipjack) (r : N) (key : list N) : res skipjack := skipjack_create r key.
