(** lib/block/rc2.c *)
From Coq Require Import NArith Arith List Bool.
From Verif Require Import Lib.Word Lib.Res Lib.Bij Model.LoadStore Model.BlockApi Lib.Bytes.
Import ListNotations.
Local Open Scope N_scope.

(** rc2.c:32-36: 64 key words *)
Record rc2 := { rc2_k : list N }.

(** rc2.c:38-72 *)
Definition rc2_sp : list N :=
  [0xD9; 0x78; 0xF9; 0xC4; 0x19; 0xDD; 0xB5; 0xED;
   0x28; 0xE9; 0xFD; 0x79; 0x4A; 0xA0; 0xD8; 0x9D;
   0xC6; 0x7E; 0x37; 0x83; 0x2B; 0x76; 0x53; 0x8E;
   0x62; 0x4C; 0x64; 0x88; 0x44; 0x8B; 0xFB; 0xA2;
   0x17; 0x9A; 0x59; 0xF5; 0x87; 0xB3; 0x4F; 0x13;
   0x61; 0x45; 0x6D; 0x8D; 0x09; 0x81; 0x7D; 0x32;
   0xBD; 0x8F; 0x40; 0xEB; 0x86; 0xB7; 0x7B; 0x0B;
   0xF0; 0x95; 0x21; 0x22; 0x5C; 0x6B; 0x4E; 0x82;
   0x54; 0xD6; 0x65; 0x93; 0xCE; 0x60; 0xB2; 0x1C;
   0x73; 0x56; 0xC0; 0x14; 0xA7; 0x8C; 0xF1; 0xDC;
   0x12; 0x75; 0xCA; 0x1F; 0x3B; 0xBE; 0xE4; 0xD1;
   0x42; 0x3D; 0xD4; 0x30; 0xA3; 0x3C; 0xB6; 0x26;
   0x6F; 0xBF; 0x0E; 0xDA; 0x46; 0x69; 0x07; 0x57;
   0x27; 0xF2; 0x1D; 0x9B; 0xBC; 0x94; 0x43; 0x03;
   0xF8; 0x11; 0xC7; 0xF6; 0x90; 0xEF; 0x3E; 0xE7;
   0x06; 0xC3; 0xD5; 0x2F; 0xC8; 0x66; 0x1E; 0xD7;
   0x08; 0xE8; 0xEA; 0xDE; 0x80; 0x52; 0xEE; 0xF7;
   0x84; 0xAA; 0x72; 0xAC; 0x35; 0x4D; 0x6A; 0x2A;
   0x96; 0x1A; 0xD2; 0x71; 0x5A; 0x15; 0x49; 0x74;
   0x4B; 0x9F; 0xD0; 0x5E; 0x04; 0x18; 0xA4; 0xEC;
   0xC2; 0xE0; 0x41; 0x6E; 0x0F; 0x51; 0xCB; 0xCC;
   0x24; 0x91; 0xAF; 0x50; 0xA1; 0xF4; 0x70; 0x39;
   0x99; 0x7C; 0x3A; 0x85; 0x23; 0xB8; 0xB4; 0x7A;
   0xFC; 0x02; 0x36; 0x5B; 0x25; 0x55; 0x97; 0x31;
   0x2D; 0x5D; 0xFA; 0x98; 0xE3; 0x8A; 0x92; 0xAE;
   0x05; 0xDF; 0x29; 0x10; 0x67; 0x6C; 0xBA; 0xC9;
   0xD3; 0x00; 0xE6; 0xCF; 0xE1; 0x9E; 0xA8; 0x2C;
   0x63; 0x16; 0x01; 0x3F; 0x58; 0xE2; 0x89; 0xA9;
   0x0D; 0x38; 0x34; 0x1B; 0xAB; 0x33; 0xFF; 0xB0;
   0xBB; 0x48; 0x0C; 0x5F; 0xB9; 0xB1; 0xCD; 0x2E;
   0xC5; 0xF3; 0xDB; 0x47; 0xE5; 0xA5; 0x9C; 0x77;
   0x0A; 0xA6; 0x20; 0x68; 0xFE; 0x7F; 0xC1; 0xAD].

(** t[i] is a byte, so the index of sp is below 256 at each use *)
Definition sp_ (x : N) : N := nth (N.to_nat (byte x)) rc2_sp 0.

(** rc2.c:88-97: [t] are 128 bytes; key_len is at least 1 (block.c:38), so t[i - 1]
    and t[i - key_len] exist.  t8 = key_len and the mask (0xFF >> (7 & -(8 key_len)))
    is 0xFF. *)
Definition rc2_expand (key : list N) : list N :=
  let n := length key in
  let t := key ++ repeat 0 (128 - n) in
  let t := pfor (128 - n) n (fun i t =>
    upd t i (sp_ (wadd 8 (nth (i - 1) t 0) (nth (i - n) t 0)))) t in
  let t := upd t (128 - n) (sp_ (N.land (nth (128 - n) t 0) 0xFF)) in
  pford (128 - n) (fun i t => upd t i (sp_ (N.lxor (nth (i + 1) t 0) (nth (i + n) t 0)))) t.

(** rc2.c:74-104: the argument r is not used *)
Definition rc2_setup (key : list N) : rc2 := {| rc2_k := loads load16l 2 64 (rc2_expand key) |}.

(** rc2.c:121-131: word [d] gets (x_a & ~x_b) + (x_c & x_b) + k[4 i + d] with
    b = d - 1, c = d - 2, a = d - 3 mod 4, then a rotation by [n] *)
Definition rc2_f (x : list N) (a b c : nat) (k : N) : N :=
  wadd 16 (N.land (nth a x 0) (wnot 16 (nth b x 0))) (wadd 16 (N.land (nth c x 0) (nth b x 0)) k).

Definition rc2_mix (k : list N) (i : nat) (o : nat * nat * nat * nat * N) (x : list N) : list N :=
  let '(d, a, b, c, n) := o in
  upd x d (rol 16 (wadd 16 (nth d x 0) (rc2_f x a b c (nth (4 * i + d) k 0))) n).
Definition rc2_unmix (k : list N) (i : nat) (o : nat * nat * nat * nat * N) (x : list N) : list N :=
  let '(d, a, b, c, n) := o in
  upd x d (wsub 16 (ror 16 (nth d x 0) n) (rc2_f x a b c (nth (4 * i + d) k 0))).
Definition ro (d a b c : nat) (n : N) : nat * nat * nat * nat * N := (d, a, b, c, n).
(** rc2.c:121-131 *)
Definition rc2_mix_ops := [ro 0 1 3 2 1; ro 1 2 0 3 2; ro 2 3 1 0 3; ro 3 0 2 1 5].
(** rc2.c:171-181 *)
Definition rc2_unmix_ops := [ro 3 0 2 1 5; ro 2 3 1 0 3; ro 1 2 0 3 2; ro 0 1 3 2 1].

(** rc2.c:135-138: x_d += k[x_b & 63]; 165-168: x_d -= k[x_b & 63] *)
Definition rc2_mash (k : list N) (o : nat * nat) (x : list N) : list N :=
  upd x (fst o) (wadd 16 (nth (fst o) x 0) (nth (N.to_nat (N.land (nth (snd o) x 0) 63)) k 0)).
Definition rc2_unmash (k : list N) (o : nat * nat) (x : list N) : list N :=
  upd x (fst o) (wsub 16 (nth (fst o) x 0) (nth (N.to_nat (N.land (nth (snd o) x 0) 63)) k 0)).
Definition rc2_mash_ops : list (nat * nat) := [(0, 3); (1, 0); (2, 1); (3, 2)]%nat.
Definition rc2_unmash_ops : list (nat * nat) := [(3, 2); (2, 1); (1, 0); (0, 3)]%nat.

Definition rc2_mashes (i : nat) : bool := Nat.eqb i 4 || Nat.eqb i 10.

(** rc2.c:119-140; all indices of k are below 64 *)
Definition rc2_enc_round (k : list N) (i : nat) (x : list N) : list N :=
  let x := prun (rc2_mix k i) rc2_mix_ops x in
  if rc2_mashes i then prun (rc2_mash k) rc2_mash_ops x else x.
(** rc2.c:161-182 *)
Definition rc2_dec_round (k : list N) (i : nat) (x : list N) : list N :=
  let x := if rc2_mashes i then prun (rc2_unmash k) rc2_unmash_ops x else x in
  prun (rc2_unmix k i) rc2_unmix_ops x.

(** rc2.c:106-146 *)
Definition rc2_encrypt (s : rc2) (pt : list N) : res (list N) :=
  let* y := Ok (pfor 16 0 (rc2_enc_round (rc2_k s)) (loads load16l 2 4 pt)) in Ok (stores store16l y).
(** rc2.c:148-188 *)
Definition rc2_decrypt (s : rc2) (ct : list N) : res (list N) :=
  let* y := Ok (pford 16 (rc2_dec_round (rc2_k s)) (loads load16l 2 4 ct)) in Ok (stores store16l y).

Definition rc2_maxkey : nat := 128.
(** rc2.c:190-204 *)
Definition rc2_create (r : N) (key : list N) : res rc2 :=
  assert_ (key_len_ok rc2_maxkey key) (Ok (rc2_setup key)).
Definition rc2_recreate (s : rc2) (r : N) (key : list N) : res rc2 :=
  assert_ (key_len_ok rc2_maxkey key) (Ok (rc2_setup key)).
