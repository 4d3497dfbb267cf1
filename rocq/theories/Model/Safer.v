(** lib/block/safer.c: SAFER K and SAFER SK *)
From Coq Require Import NArith Arith List Bool.
From Verif Require Import Lib.Word Lib.Res Model.LoadStore Model.BlockApi Model.Table Lib.Bytes Lib.Bij.
Import ListNotations.
Local Open Scope N_scope.

(** safer.c:31-36 *)
Record safer := { safer_r : N; safer_k : list N }.

(** safer.c:38-72 *)
Definition safer_exp : list N :=
  [0x01; 0x2D; 0xE2; 0x93; 0xBE; 0x45; 0x15; 0xAE; 0x78; 0x03; 0x87; 0xA4; 0xB8; 0x38; 0xCF; 0x3F;
   0x08; 0x67; 0x09; 0x94; 0xEB; 0x26; 0xA8; 0x6B; 0xBD; 0x18; 0x34; 0x1B; 0xBB; 0xBF; 0x72; 0xF7;
   0x40; 0x35; 0x48; 0x9C; 0x51; 0x2F; 0x3B; 0x55; 0xE3; 0xC0; 0x9F; 0xD8; 0xD3; 0xF3; 0x8D; 0xB1;
   0xFF; 0xA7; 0x3E; 0xDC; 0x86; 0x77; 0xD7; 0xA6; 0x11; 0xFB; 0xF4; 0xBA; 0x92; 0x91; 0x64; 0x83;
   0xF1; 0x33; 0xEF; 0xDA; 0x2C; 0xB5; 0xB2; 0x2B; 0x88; 0xD1; 0x99; 0xCB; 0x8C; 0x84; 0x1D; 0x14;
   0x81; 0x97; 0x71; 0xCA; 0x5F; 0xA3; 0x8B; 0x57; 0x3C; 0x82; 0xC4; 0x52; 0x5C; 0x1C; 0xE8; 0xA0;
   0x04; 0xB4; 0x85; 0x4A; 0xF6; 0x13; 0x54; 0xB6; 0xDF; 0x0C; 0x1A; 0x8E; 0xDE; 0xE0; 0x39; 0xFC;
   0x20; 0x9B; 0x24; 0x4E; 0xA9; 0x98; 0x9E; 0xAB; 0xF2; 0x60; 0xD0; 0x6C; 0xEA; 0xFA; 0xC7; 0xD9;
   0x00; 0xD4; 0x1F; 0x6E; 0x43; 0xBC; 0xEC; 0x53; 0x89; 0xFE; 0x7A; 0x5D; 0x49; 0xC9; 0x32; 0xC2;
   0xF9; 0x9A; 0xF8; 0x6D; 0x16; 0xDB; 0x59; 0x96; 0x44; 0xE9; 0xCD; 0xE6; 0x46; 0x42; 0x8F; 0x0A;
   0xC1; 0xCC; 0xB9; 0x65; 0xB0; 0xD2; 0xC6; 0xAC; 0x1E; 0x41; 0x62; 0x29; 0x2E; 0x0E; 0x74; 0x50;
   0x02; 0x5A; 0xC3; 0x25; 0x7B; 0x8A; 0x2A; 0x5B; 0xF0; 0x06; 0x0D; 0x47; 0x6F; 0x70; 0x9D; 0x7E;
   0x10; 0xCE; 0x12; 0x27; 0xD5; 0x4C; 0x4F; 0xD6; 0x79; 0x30; 0x68; 0x36; 0x75; 0x7D; 0xE4; 0xED;
   0x80; 0x6A; 0x90; 0x37; 0xA2; 0x5E; 0x76; 0xAA; 0xC5; 0x7F; 0x3D; 0xAF; 0xA5; 0xE5; 0x19; 0x61;
   0xFD; 0x4D; 0x7C; 0xB7; 0x0B; 0xEE; 0xAD; 0x4B; 0x22; 0xF5; 0xE7; 0x73; 0x23; 0x21; 0xC8; 0x05;
   0xE1; 0x66; 0xDD; 0xB3; 0x58; 0x69; 0x63; 0x56; 0x0F; 0xA1; 0x31; 0x95; 0x17; 0x07; 0x3A; 0x28].

(** safer.c:74-108 *)
Definition safer_log : list N :=
  [0x80; 0x00; 0xB0; 0x09; 0x60; 0xEF; 0xB9; 0xFD; 0x10; 0x12; 0x9F; 0xE4; 0x69; 0xBA; 0xAD; 0xF8;
   0xC0; 0x38; 0xC2; 0x65; 0x4F; 0x06; 0x94; 0xFC; 0x19; 0xDE; 0x6A; 0x1B; 0x5D; 0x4E; 0xA8; 0x82;
   0x70; 0xED; 0xE8; 0xEC; 0x72; 0xB3; 0x15; 0xC3; 0xFF; 0xAB; 0xB6; 0x47; 0x44; 0x01; 0xAC; 0x25;
   0xC9; 0xFA; 0x8E; 0x41; 0x1A; 0x21; 0xCB; 0xD3; 0x0D; 0x6E; 0xFE; 0x26; 0x58; 0xDA; 0x32; 0x0F;
   0x20; 0xA9; 0x9D; 0x84; 0x98; 0x05; 0x9C; 0xBB; 0x22; 0x8C; 0x63; 0xE7; 0xC5; 0xE1; 0x73; 0xC6;
   0xAF; 0x24; 0x5B; 0x87; 0x66; 0x27; 0xF7; 0x57; 0xF4; 0x96; 0xB1; 0xB7; 0x5C; 0x8B; 0xD5; 0x54;
   0x79; 0xDF; 0xAA; 0xF6; 0x3E; 0xA3; 0xF1; 0x11; 0xCA; 0xF5; 0xD1; 0x17; 0x7B; 0x93; 0x83; 0xBC;
   0xBD; 0x52; 0x1E; 0xEB; 0xAE; 0xCC; 0xD6; 0x35; 0x08; 0xC8; 0x8A; 0xB4; 0xE2; 0xCD; 0xBF; 0xD9;
   0xD0; 0x50; 0x59; 0x3F; 0x4D; 0x62; 0x34; 0x0A; 0x48; 0x88; 0xB5; 0x56; 0x4C; 0x2E; 0x6B; 0x9E;
   0xD2; 0x3D; 0x3C; 0x03; 0x13; 0xFB; 0x97; 0x51; 0x75; 0x4A; 0x91; 0x71; 0x23; 0xBE; 0x76; 0x2A;
   0x5F; 0xF9; 0xD4; 0x55; 0x0B; 0xDC; 0x37; 0x31; 0x16; 0x74; 0xD7; 0x77; 0xA7; 0xE6; 0x07; 0xDB;
   0xA4; 0x2F; 0x46; 0xF3; 0x61; 0x45; 0x67; 0xE3; 0x0C; 0xA2; 0x3B; 0x1C; 0x85; 0x18; 0x04; 0x1D;
   0x29; 0xA0; 0x8F; 0xB2; 0x5A; 0xD8; 0xA6; 0x7E; 0xEE; 0x8D; 0x53; 0x4B; 0xA1; 0x9A; 0xC1; 0x0E;
   0x7A; 0x49; 0xA5; 0x2C; 0x81; 0xC4; 0xC7; 0x36; 0x2B; 0x7F; 0x43; 0x95; 0x33; 0xF2; 0x6C; 0x68;
   0x6D; 0xF0; 0x02; 0x28; 0xCE; 0xDD; 0x9B; 0xEA; 0x5E; 0x99; 0x7C; 0x14; 0x86; 0xCF; 0xE5; 0x42;
   0xB8; 0x40; 0x78; 0x2D; 0x3A; 0xE9; 0x64; 0x1F; 0x92; 0x90; 0x7D; 0x39; 0x6F; 0xE0; 0x89; 0x30].

(** The layers below are shared with saferpp.c; [e] and [l] are exp_tab and log_tab
    and [n] the number of bytes.  Bytes 0 and 3 of every four are treated one way and
    bytes 1 and 2 the other way. *)
Definition sf_out (j : nat) : bool := Nat.eqb (j mod 4) 0 || Nat.eqb (j mod 4) 3.
Definition sf_bytes (n : nat) (f : nat -> N -> N -> N) (k x : list N) : list N :=
  map (fun j => f j (nth j x 0) (nth j k 0)) (seq 0 n).
(** [n] bytes of the schedule from [i] on *)
Definition sf_key (ks : list N) (i n : nat) : res (list N) :=
  if Nat.leb (i + n) (length ks) then Ok (slice i n ks) else Err OobRead.

(** safer.c:133-140, saferpp.c:140-155 *)
Definition sf_sub (e l : list N) (n : nat) : list N -> list N -> list N :=
  sf_bytes n (fun j x k => if sf_out j then tab8 e (N.lxor x k) else tab8 l (x + k)).
(** safer.c:142-149, saferpp.c:157-172 *)
Definition sf_add (n : nat) : list N -> list N -> list N :=
  sf_bytes n (fun j x k => if sf_out j then wadd 8 x k else N.lxor x k).
(** safer.c:164-171, saferpp.c:190-205 *)
Definition sf_end (n : nat) : list N -> list N -> list N :=
  sf_bytes n (fun j x k => if sf_out j then N.lxor x k else wadd 8 x k).
(** safer.c:201-208, saferpp.c:216-231 *)
Definition sf_unend (n : nat) : list N -> list N -> list N :=
  sf_bytes n (fun j x k => if sf_out j then N.lxor x k else wsub 8 x k).
(** safer.c:224-231, saferpp.c:250-265 *)
Definition sf_unadd (n : nat) : list N -> list N -> list N :=
  sf_bytes n (fun j x k => if sf_out j then wsub 8 x k else N.lxor x k).
(** safer.c:233-240, saferpp.c:267-282 *)
Definition sf_unsub (e l : list N) (n : nat) : list N -> list N -> list N :=
  sf_bytes n (fun j x k => if sf_out j then N.lxor (tab8 l x) k else wsub 8 (tab8 e x) k).

(** statements [x_d += x_s], [x_d -= x_s] and [x_d = x_s] *)
Definition sf_plus (o : nat * nat) (x : list N) : list N :=
  upd x (fst o) (wadd 8 (nth (fst o) x 0) (nth (snd o) x 0)).
Definition sf_minus (o : nat * nat) (x : list N) : list N :=
  upd x (fst o) (wsub 8 (nth (fst o) x 0) (nth (snd o) x 0)).
Definition sf_mov (o : nat * nat) (x : list N) : list N := upd x (fst o) (nth (snd o) x 0).
(** moves with the variable t as register [n] *)
Definition sf_moves (n : nat) (l : list (nat * nat)) (x : list N) : list N :=
  firstn n (prun sf_mov l (x ++ [0])).

(** safer.c:151-158 *)
Definition safer_pht : list (nat * nat) :=
  [(1, 0); (3, 2); (5, 4); (7, 6); (0, 1); (2, 3); (4, 5); (6, 7); (2, 0); (6, 4); (3, 1); (7, 5); (0, 2);
   (4, 6); (1, 3); (5, 7); (4, 0); (5, 1); (6, 2); (7, 3); (0, 4); (1, 5); (2, 6); (3, 7)]%nat.
(** safer.c:160-161 *)
Definition safer_perm : list (nat * nat) :=
  [(8, 1); (1, 4); (4, 2); (2, 8); (8, 3); (3, 5); (5, 6); (6, 8)]%nat.
(** safer.c:212-213 *)
Definition safer_unperm : list (nat * nat) :=
  [(8, 4); (4, 1); (1, 2); (2, 8); (8, 5); (5, 3); (3, 6); (6, 8)]%nat.
(** safer.c:215-222 *)
Definition safer_unpht : list (nat * nat) :=
  [(0, 4); (1, 5); (2, 6); (3, 7); (4, 0); (5, 1); (6, 2); (7, 3); (0, 2); (4, 6); (1, 3); (5, 7); (2, 0);
   (6, 4); (3, 1); (7, 5); (0, 1); (2, 3); (4, 5); (6, 7); (1, 0); (3, 2); (5, 4); (7, 6)]%nat.

(** safer.c:133-161, round number [i] *)
Definition safer_round (s : safer) (i : nat) (x : list N) : res (list N) :=
  let* k := sf_key (safer_k s) (16 * i) 8 in
  let* k' := sf_key (safer_k s) (16 * i + 8) 8 in
  Ok (sf_moves 8 safer_perm (prun sf_plus safer_pht (sf_add 8 k' (sf_sub safer_exp safer_log 8 k x)))).
(** safer.c:113-181 *)
Definition safer_encrypt (s : safer) (pt : list N) : res (list N) :=
  let n := N.to_nat (safer_r s) in
  let* x := mfor n 0 (safer_round s) pt in
  let* k := sf_key (safer_k s) (16 * n) 8 in
  Ok (sf_end 8 k x).
(** safer.c:212-240 *)
Definition safer_unround (s : safer) (i : nat) (x : list N) : res (list N) :=
  let* k' := sf_key (safer_k s) (16 * i + 8) 8 in
  let* k := sf_key (safer_k s) (16 * i) 8 in
  Ok (sf_unsub safer_exp safer_log 8 k (sf_unadd 8 k' (prun sf_minus safer_unpht (sf_moves 8 safer_unperm x)))).
(** safer.c:183-251 *)
Definition safer_decrypt (s : safer) (ct : list N) : res (list N) :=
  let n := N.to_nat (safer_r s) in
  let* k := sf_key (safer_k s) (16 * n) 8 in
  mford n (safer_unround s) (sf_unend 8 k ct).

(** safer.c:266-275, saferpp.c:315-324: the bytes and their exclusive or *)
Definition sf_parity (l : list N) : list N := l ++ [fold_left N.lxor l 0].

(** safer.c:277-296: pass [m] of the loop has i = 2 m *)
Definition safer_step (sk : bool) (m : nat) (st : list N * list N * list N) : list N * list N * list N :=
  let '(ks, ka, kb) := st in
  let ka := map (fun v => rol 8 v 6) ka in
  let kb := map (fun v => rol 8 v 6) kb in
  let i := (2 * m)%nat in
  let bias c := tab8 safer_exp (tab8 safer_exp (N.of_nat c)) in
  let f j := wadd 8 (nth (if sk then (i - 1 + j) mod 9 else j)%nat ka 0) (bias (9 * i + 1 + j)%nat) in
  let g j := wadd 8 (nth (if sk then (i + j) mod 9 else j)%nat kb 0) (bias (9 * i + 10 + j)%nat) in
  (ks ++ map f (seq 0 8) ++ map g (seq 0 8), ka, kb).
(** safer.c:253-300: eight bytes are read from key and from key2, whatever key_len is *)
Definition safer_setup (sk : bool) (r : N) (key : list N) : res safer :=
  let key2 := if Nat.ltb 8 (length key) then skipn 8 key else key in
  let* a := sf_key key 0 8 in
  let* b := sf_key key2 0 8 in
  let ka := sf_parity (map (fun v => rol 8 v 5) a) in
  let kb := sf_parity b in
  let '(ks, _, _) := pfor (N.to_nat r) 1 (safer_step sk) (b, ka, kb) in
  Ok {| safer_r := r; safer_k := ks |}.

(** safer.c:415-439 *)
Definition safer_maxkey : nat := 16.
(** safer.c:318-322, 344-347, 372-375 and 397-400 *)
Definition safer_rounds (r : N) (key : list N) : N :=
  if r =? 0 then (if Nat.ltb 8 (length key) then 10 else 6) else r.
(** safer.c:308-334 ([sk] false) and 362-387 ([sk] true) *)
Definition safer_create (sk : bool) (r : N) (key : list N) : res safer :=
  assert_ (key_len_ok safer_maxkey key)
    (let r := safer_rounds r key in
     fits (16 * r + 8) (wadd 32 (wshl 32 r 4) 8) (safer_setup sk r key)).
(** safer.c:336-360 and 389-413 *)
Definition safer_recreate (sk : bool) (s : safer) (r : N) (key : list N) : res safer :=
  assert_ (key_len_ok safer_maxkey key)
    (let r := safer_rounds r key in if r =? safer_r s then safer_setup sk r key else Err UseAfterFree).
