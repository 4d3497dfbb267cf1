(** lib/block/sm4.c *)
From Coq Require Import NArith Arith List Bool.
From Verif Require Import Lib.Word Lib.Res Model.LoadStore Model.BlockApi Model.Table Lib.Bytes.
Import ListNotations.
Local Open Scope N_scope.

(** sm4.c:28-34 *)
Record sm4 := { sm4_r : N; sm4_k : list N }.

(** sm4.c:36-70 *)
Definition sm4_s : list N :=
  [0xD6; 0x90; 0xE9; 0xFE; 0xCC; 0xE1; 0x3D; 0xB7; 0x16; 0xB6; 0x14; 0xC2; 0x28; 0xFB; 0x2C; 0x05;
   0x2B; 0x67; 0x9A; 0x76; 0x2A; 0xBE; 0x04; 0xC3; 0xAA; 0x44; 0x13; 0x26; 0x49; 0x86; 0x06; 0x99;
   0x9C; 0x42; 0x50; 0xF4; 0x91; 0xEF; 0x98; 0x7A; 0x33; 0x54; 0x0B; 0x43; 0xED; 0xCF; 0xAC; 0x62;
   0xE4; 0xB3; 0x1C; 0xA9; 0xC9; 0x08; 0xE8; 0x95; 0x80; 0xDF; 0x94; 0xFA; 0x75; 0x8F; 0x3F; 0xA6;
   0x47; 0x07; 0xA7; 0xFC; 0xF3; 0x73; 0x17; 0xBA; 0x83; 0x59; 0x3C; 0x19; 0xE6; 0x85; 0x4F; 0xA8;
   0x68; 0x6B; 0x81; 0xB2; 0x71; 0x64; 0xDA; 0x8B; 0xF8; 0xEB; 0x0F; 0x4B; 0x70; 0x56; 0x9D; 0x35;
   0x1E; 0x24; 0x0E; 0x5E; 0x63; 0x58; 0xD1; 0xA2; 0x25; 0x22; 0x7C; 0x3B; 0x01; 0x21; 0x78; 0x87;
   0xD4; 0x00; 0x46; 0x57; 0x9F; 0xD3; 0x27; 0x52; 0x4C; 0x36; 0x02; 0xE7; 0xA0; 0xC4; 0xC8; 0x9E;
   0xEA; 0xBF; 0x8A; 0xD2; 0x40; 0xC7; 0x38; 0xB5; 0xA3; 0xF7; 0xF2; 0xCE; 0xF9; 0x61; 0x15; 0xA1;
   0xE0; 0xAE; 0x5D; 0xA4; 0x9B; 0x34; 0x1A; 0x55; 0xAD; 0x93; 0x32; 0x30; 0xF5; 0x8C; 0xB1; 0xE3;
   0x1D; 0xF6; 0xE2; 0x2E; 0x82; 0x66; 0xCA; 0x60; 0xC0; 0x29; 0x23; 0xAB; 0x0D; 0x53; 0x4E; 0x6F;
   0xD5; 0xDB; 0x37; 0x45; 0xDE; 0xFD; 0x8E; 0x2F; 0x03; 0xFF; 0x6A; 0x72; 0x6D; 0x6C; 0x5B; 0x51;
   0x8D; 0x1B; 0xAF; 0x92; 0xBB; 0xDD; 0xBC; 0x7F; 0x11; 0xD9; 0x5C; 0x41; 0x1F; 0x10; 0x5A; 0xD8;
   0x0A; 0xC1; 0x31; 0x88; 0xA5; 0xCD; 0x7B; 0xBD; 0x2D; 0x74; 0xD0; 0x12; 0xB8; 0xE5; 0xB4; 0xB0;
   0x89; 0x69; 0x97; 0x4A; 0x0C; 0x96; 0x77; 0x7E; 0x65; 0xB9; 0xF1; 0x09; 0xC5; 0x6E; 0xC6; 0x84;
   0x18; 0xF0; 0x7D; 0xEC; 0x3A; 0xDC; 0x4D; 0x20; 0x79; 0xEE; 0x5F; 0x3E; 0xD7; 0xCB; 0x39; 0x48].

(** sm4.c:72-82 *)
Definition sm4_ck : list N :=
  [0x00070E15; 0x1C232A31; 0x383F464D; 0x545B6269; 0x70777E85; 0x8C939AA1; 0xA8AFB6BD; 0xC4CBD2D9;
   0xE0E7EEF5; 0xFC030A11; 0x181F262D; 0x343B4249; 0x50575E65; 0x6C737A81; 0x888F969D; 0xA4ABB2B9;
   0xC0C7CED5; 0xDCE3EAF1; 0xF8FF060D; 0x141B2229; 0x30373E45; 0x4C535A61; 0x686F767D; 0x848B9299;
   0xA0A7AEB5; 0xBCC3CAD1; 0xD8DFE6ED; 0xF4FB0209; 0x10171E25; 0x2C333A41; 0x484F565D; 0x646B7279].

(** sm4.c:84-90.  S[..] << 24 shifts an int and overflows for entries of 128 and more;
    the model takes the wrapped value. *)
Definition sm4_tau (x : N) : N :=
  N.lor (N.lor (N.lor (wshl 32 (tab8 sm4_s (wshr x 24)) 24) (wshl 32 (tab8 sm4_s (wshr x 16)) 16))
    (wshl 32 (tab8 sm4_s (wshr x 8)) 8)) (tab8 sm4_s x).
(** sm4.c:92-93 *)
Definition sm4_l (x : N) : N :=
  N.lxor (N.lxor (N.lxor (N.lxor x (rol 32 x 2)) (rol 32 x 10)) (rol 32 x 18)) (rol 32 x 24).
Definition sm4_ls (x : N) : N := N.lxor (N.lxor x (rol 32 x 13)) (rol 32 x 23).

(** sm4.c:95-100 and 102-107: the new value of A *)
Definition sm4_f (a b c d rk : N) : N := N.lxor a (sm4_l (sm4_tau (N.lxor (N.lxor (N.lxor b c) d) rk))).
Definition sm4_fs (a b c d rk : N) : N := N.lxor a (sm4_ls (sm4_tau (N.lxor (N.lxor (N.lxor b c) d) rk))).

(** four rounds, sm4.c:123-126, 149-152 (with [sm4_f]) and 176-179 (with [sm4_fs]) *)
Definition sm4_quad (f : N -> N -> N -> N -> N -> N) (k0 k1 k2 k3 : N) (x : N * N * N * N) : N * N * N * N :=
  let '(a, b, c, d) := x in
  let a := f a b c d k0 in
  let b := f b c d a k1 in
  let c := f c d a b k2 in
  let d := f d a b c k3 in
  (a, b, c, d).
(** the stores of sm4.c:129-132 and 155-158: d, c, b, a *)
Definition sm4_rev (x : N * N * N * N) : N * N * N * N := let '(a, b, c, d) := x in (d, c, b, a).

(** sm4.c:109-133: ceil(r / 4) turns of the loop *)
Definition sm4_encrypt (s : sm4) (pt : list N) : res (list N) :=
  let* x := mfor (N.to_nat ((sm4_r s + 3) / 4)) 0 (fun i x =>
    let* k0 := get (sm4_k s) (4 * i) in
    let* k1 := get (sm4_k s) (4 * i + 1) in
    let* k2 := get (sm4_k s) (4 * i + 2) in
    let* k3 := get (sm4_k s) (4 * i + 3) in
    Ok (sm4_quad sm4_f k0 k1 k2 k3 x)) (ld4 (k := 4) (ld := load32b) pt) in
  Ok (st4 (st := store32b) (sm4_rev x)).

(** sm4.c:135-159: the index counts down by four per turn; when r is no multiple of
    four it passes zero and the read is outside the array. *)
Definition sm4_decrypt (s : sm4) (ct : list N) : res (list N) :=
  let q := N.to_nat (sm4_r s mod 4) in
  let* x := mford (N.to_nat (sm4_r s / 4)) (fun i x =>
    let* k3 := get (sm4_k s) (q + 4 * i + 3) in
    let* k2 := get (sm4_k s) (q + 4 * i + 2) in
    let* k1 := get (sm4_k s) (q + 4 * i + 1) in
    let* k0 := get (sm4_k s) (q + 4 * i) in
    Ok (sm4_quad sm4_f k3 k2 k1 k0 x)) (ld4 (k := 4) (ld := load32b) ct) in
  if sm4_r s mod 4 =? 0 then Ok (st4 (st := store32b) (sm4_rev x)) else Err OobRead.

(** sm4.c:168-173: the key bytes exclusive-ored into the system parameter; the shift of
    an int may overflow as in [sm4_tau] *)
Definition sm4_fk : list N := [0xA3B1BAC6; 0x56AA3350; 0x677D9197; 0xB27022DC].
Definition sm4_load (key : list N) : list N :=
  pfor (length key) 0 (fun i k =>
    upd k (i / 4) (N.lxor (nth (i / 4) k 0) (wshl 32 (nth i key 0) (24 - 8 * N.of_nat (i mod 4))))) sm4_fk.

(** sm4.c:175-181, one turn: four words of CK are read and four key words appended
    (room for them is checked in [sm4_setup]) *)
Definition sm4_step (i : nat) (st : list N * (N * N * N * N)) : res (list N * (N * N * N * N)) :=
  let* c0 := get sm4_ck (4 * i) in
  let* c1 := get sm4_ck (4 * i + 1) in
  let* c2 := get sm4_ck (4 * i + 2) in
  let* c3 := get sm4_ck (4 * i + 3) in
  let '(a, b, c, d) := sm4_quad sm4_fs c0 c1 c2 c3 (snd st) in
  Ok (fst st ++ [a; b; c; d], (a, b, c, d)).

(** sm4.c:161-184; [4 * turns] words are stored into an array of [room] words.  For r
    above 32 the table CK is overrun as well; the model reports one of the errors. *)
Definition sm4_setup (room r : N) (key : list N) : res sm4 :=
  let turns := (r + 3) / 4 in
  fits (4 * turns) room
    (let k := sm4_load key in
     let* st := mfor (N.to_nat turns) 0 sm4_step ([], (nth 0 k 0, nth 1 k 0, nth 2 k 0, nth 3 k 0)) in
     Ok {| sm4_r := r; sm4_k := fst st |}).

Definition sm4_maxkey : nat := 16.
Definition sm4_rounds (r : N) : N := if r =? 0 then 32 else r.
(** sm4.c:186-205: (r << 2) bytes *)
Definition sm4_create (r : N) (key : list N) : res sm4 :=
  assert_ (key_len_ok sm4_maxkey key)
    (let r := sm4_rounds r in sm4_setup (wshl 32 r 2 / 4) r key).
(** sm4.c:213-234 *)
Definition sm4_recreate (s : sm4) (r : N) (key : list N) : res sm4 :=
  assert_ (key_len_ok sm4_maxkey key)
    (let r := sm4_rounds r in if r =? sm4_r s then sm4_setup (wshl 32 r 2 / 4) r key else Err UseAfterFree).
