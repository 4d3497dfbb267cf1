(** lib/block/saferpp.c: SAFER++ *)
From Coq Require Import NArith Arith List Bool.
From Verif Require Import Lib.Word Lib.Res Model.LoadStore Model.BlockApi Model.Table Lib.Bytes Lib.Bij Model.Safer.
Import ListNotations.
Local Open Scope N_scope.

(** saferpp.c:28-33 *)
Record saferpp := { spp_r : N; spp_k : list N }.

(** saferpp.c:35-69 *)
Definition spp_exp : list N :=
  [0x01; 0x2D; 0xE2; 0x93; 0xBE; 0x45; 0x15; 0xAE; 0x78; 0x03; 0x87; 0xA4; 0xB8; 0x38; 0xCF; 0x3F;
   0x08; 0x67; 0x09; 0x94; 0xEB; 0x26; 0xA8; 0x6B; 0xBD; 0x18; 0x34; 0x1B; 0xBB; 0xBF; 0x72; 0xF7;
   0x40; 0x35; 0x48; 0x9C; 0x51; 0x2F; 0x3B; 0x55; 0xE3; 0xC0; 0x9F; 0xD8; 0xD3; 0xF3; 0x8D; 0xB1;
   0xFF; 0xA7; 0x3E; 0xDC; 0x86; 0x77; 0xD7; 0xA6; 0x11; 0xFB; 0xF4; 0xBA; 0x92; 0x91; 0x64; 0x83;
   0xF1; 0x33; 0xEF; 0xDA; 0x2C; 0xB5; 0xB2; 0x2B; 0x88; 0xD1; 0x99; 0xCB; 0x8C; 0x84; 0x1D; 0x14;
   0x81; 0x97; 0x71; 0xCA; 0x5F; 0xA3; 0x8B; 0x57; 0x3C; 0x82; 0xC4; 0x52; 0x5C; 0x1C; 0xE8; 0xA0;
   0x04; 0xB4; 0x85; 0x4A; 0xF6; 0x13; 0x54; 0xB6; 0xDF; 0x0C; 0x1A; 0x8E; 0xDE; 0xE0; 0x39; 0xFC;
   0x20; 0x9B; 0x24; 0x4E; 0xA9; 0x98; 0x9E; 0xAB; 0xF2; 0x60; 0xD0; 0x6C; 0xEA; 0xFA; 0xC7; 0xD9;
   0x00; 0xD4; 0x1F; 0x6E; 0x43; 0xBC; 0xEC; 0x53; 0x89; 0xFE; 0x7A; 0x5D; 0x49; 0xC9; 0x32; 0xC2;
   0xF9; 0x9A; 0xF8; 0x6D; 0x16; 0xDB; 0x59; 0x96; 0x44; 0xE9; 0xCD; 0xE6; 0x46; 0x42; 0x8F; 0x0A;
   0xC1; 0xCC; 0xB9; 0x65; 0xB0; 0xD2; 0xC6; 0xAC; 0x1E; 0x41; 0x62; 0x29; 0x2E; 0x0E; 0x74; 0x50;
   0x02; 0x5A; 0xC3; 0x25; 0x7B; 0x8A; 0x2A; 0x5B; 0xF0; 0x06; 0x0D; 0x47; 0x6F; 0x70; 0x9D; 0x7E;
   0x10; 0xCE; 0x12; 0x27; 0xD5; 0x4C; 0x4F; 0xD6; 0x79; 0x30; 0x68; 0x36; 0x75; 0x7D; 0xE4; 0xED;
   0x80; 0x6A; 0x90; 0x37; 0xA2; 0x5E; 0x76; 0xAA; 0xC5; 0x7F; 0x3D; 0xAF; 0xA5; 0xE5; 0x19; 0x61;
   0xFD; 0x4D; 0x7C; 0xB7; 0x0B; 0xEE; 0xAD; 0x4B; 0x22; 0xF5; 0xE7; 0x73; 0x23; 0x21; 0xC8; 0x05;
   0xE1; 0x66; 0xDD; 0xB3; 0x58; 0x69; 0x63; 0x56; 0x0F; 0xA1; 0x31; 0x95; 0x17; 0x07; 0x3A; 0x28].

(** saferpp.c:71-105 *)
Definition spp_log : list N :=
  [0x80; 0x00; 0xB0; 0x09; 0x60; 0xEF; 0xB9; 0xFD; 0x10; 0x12; 0x9F; 0xE4; 0x69; 0xBA; 0xAD; 0xF8;
   0xC0; 0x38; 0xC2; 0x65; 0x4F; 0x06; 0x94; 0xFC; 0x19; 0xDE; 0x6A; 0x1B; 0x5D; 0x4E; 0xA8; 0x82;
   0x70; 0xED; 0xE8; 0xEC; 0x72; 0xB3; 0x15; 0xC3; 0xFF; 0xAB; 0xB6; 0x47; 0x44; 0x01; 0xAC; 0x25;
   0xC9; 0xFA; 0x8E; 0x41; 0x1A; 0x21; 0xCB; 0xD3; 0x0D; 0x6E; 0xFE; 0x26; 0x58; 0xDA; 0x32; 0x0F;
   0x20; 0xA9; 0x9D; 0x84; 0x98; 0x05; 0x9C; 0xBB; 0x22; 0x8C; 0x63; 0xE7; 0xC5; 0xE1; 0x73; 0xC6;
   0xAF; 0x24; 0x5B; 0x87; 0x66; 0x27; 0xF7; 0x57; 0xF4; 0x96; 0xB1; 0xB7; 0x5C; 0x8B; 0xD5; 0x54;
   0x79; 0xDF; 0xAA; 0xF6; 0x3E; 0xA3; 0xF1; 0x11; 0xCA; 0xF5; 0xD1; 0x17; 0x7B; 0x93; 0x83; 0xBC;
   0xBD; 0x52; 0x1E; 0xEB; 0xAE; 0xCC; 0xD6; 0x35; 0x08; 0xC8; 0x8A; 0xB4; 0xE2; 0xCD; 0xBF; 0xD9;
   0xD0; 0x50; 0x59; 0x3F; 0x4D; 0x62; 0x34; 0x0A; 0x48; 0x88; 0xB5; 0x56; 0x4C; 0x2E; 0x6B; 0x9E;
   0xD2; 0x3D; 0x3C; 0x03; 0x13; 0xFB; 0x97; 0x51; 0x75; 0x4A; 0x91; 0x71; 0x23; 0xBE; 0x76; 0x2A;
   0x5F; 0xF9; 0xD4; 0x55; 0x0B; 0xDC; 0x37; 0x31; 0x16; 0x74; 0xD7; 0x77; 0xA7; 0xE6; 0x07; 0xDB;
   0xA4; 0x2F; 0x46; 0xF3; 0x61; 0x45; 0x67; 0xE3; 0x0C; 0xA2; 0x3B; 0x1C; 0x85; 0x18; 0x04; 0x1D;
   0x29; 0xA0; 0x8F; 0xB2; 0x5A; 0xD8; 0xA6; 0x7E; 0xEE; 0x8D; 0x53; 0x4B; 0xA1; 0x9A; 0xC1; 0x0E;
   0x7A; 0x49; 0xA5; 0x2C; 0x81; 0xC4; 0xC7; 0x36; 0x2B; 0x7F; 0x43; 0x95; 0x33; 0xF2; 0x6C; 0x68;
   0x6D; 0xF0; 0x02; 0x28; 0xCE; 0xDD; 0x9B; 0xEA; 0x5E; 0x99; 0x7C; 0x14; 0x86; 0xCF; 0xE5; 0x42;
   0xB8; 0x40; 0x78; 0x2D; 0x3A; 0xE9; 0x64; 0x1F; 0x92; 0x90; 0x7D; 0x39; 0x6F; 0xE0; 0x89; 0x30].

(** saferpp.c:174-182 with PHT4 (110) written out *)
Definition spp_pht : list (nat * nat) :=
  [(15, 8); (15, 5); (15, 2); (8, 15); (5, 15); (2, 15); (7, 0); (7, 13); (7, 10); (0, 7); (13, 7); (10, 7);
   (11, 4); (11, 1); (11, 14); (4, 11); (1, 11); (14, 11); (3, 12); (3, 9); (3, 6); (12, 3); (9, 3); (6, 3);
   (3, 4); (3, 13); (3, 2); (4, 3); (13, 3); (2, 3); (7, 8); (7, 9); (7, 14); (8, 7); (9, 7); (14, 7);
   (11, 0); (11, 5); (11, 6); (0, 11); (5, 11); (6, 11); (15, 12); (15, 1); (15, 10); (12, 15); (1, 15);
   (10, 15)]%nat.
(** saferpp.c:184-187 *)
Definition spp_perm : list (nat * nat) :=
  [(16, 8); (8, 0); (0, 4); (4, 16); (16, 13); (13, 1); (1, 16); (16, 9); (9, 5); (5, 16); (16, 6); (6, 14);
   (14, 10); (10, 16)]%nat.
(** saferpp.c:235-238 *)
Definition spp_unperm : list (nat * nat) :=
  [(16, 8); (8, 4); (4, 0); (0, 16); (16, 13); (13, 1); (1, 16); (16, 9); (9, 5); (5, 16); (16, 6); (6, 10);
   (10, 14); (14, 16)]%nat.
(** saferpp.c:240-248 with IPHT4 (111) written out *)
Definition spp_unpht : list (nat * nat) :=
  [(2, 3); (13, 3); (4, 3); (3, 2); (3, 13); (3, 4); (14, 7); (9, 7); (8, 7); (7, 14); (7, 9); (7, 8);
   (6, 11); (5, 11); (0, 11); (11, 6); (11, 5); (11, 0); (10, 15); (1, 15); (12, 15); (15, 10); (15, 1);
   (15, 12); (2, 15); (5, 15); (8, 15); (15, 2); (15, 5); (15, 8); (10, 7); (13, 7); (0, 7); (7, 10);
   (7, 13); (7, 0); (14, 11); (1, 11); (4, 11); (11, 14); (11, 1); (11, 4); (6, 3); (9, 3); (12, 3); (3, 6);
   (3, 9); (3, 12)]%nat.

(** saferpp.c:140-187, round number [i] *)
Definition spp_round (s : saferpp) (i : nat) (x : list N) : res (list N) :=
  let* k := sf_key (spp_k s) (32 * i) 16 in
  let* k' := sf_key (spp_k s) (32 * i + 16) 16 in
  Ok (sf_moves 16 spp_perm (prun sf_plus spp_pht (sf_add 16 k' (sf_sub spp_exp spp_log 16 k x)))).
(** saferpp.c:113-206 *)
Definition saferpp_encrypt (s : saferpp) (pt : list N) : res (list N) :=
  let n := N.to_nat (spp_r s) in
  let* x := mfor n 0 (spp_round s) pt in
  let* k := sf_key (spp_k s) (32 * n) 16 in
  Ok (sf_end 16 k x).
(** saferpp.c:235-282 *)
Definition spp_unround (s : saferpp) (i : nat) (x : list N) : res (list N) :=
  let* k' := sf_key (spp_k s) (32 * i + 16) 16 in
  let* k := sf_key (spp_k s) (32 * i) 16 in
  Ok (sf_unsub spp_exp spp_log 16 k (sf_unadd 16 k' (prun sf_minus spp_unpht (sf_moves 16 spp_unperm x)))).
(** saferpp.c:208-301 *)
Definition saferpp_decrypt (s : saferpp) (ct : list N) : res (list N) :=
  let n := N.to_nat (spp_r s) in
  let* k := sf_key (spp_k s) (32 * n) 16 in
  mford n (spp_unround s) (sf_unend 16 k ct).

(** saferpp.c:326-357: pass [m] of the loop has i = 2 m *)
Definition spp_step (m : nat) (st : list N * list N * list N) : list N * list N * list N :=
  let '(ks, ka, kb) := st in
  let ka := map (fun v => rol 8 v 6) ka in
  let kb := map (fun v => rol 8 v 6) kb in
  let i := (2 * m)%nat in
  let bias (lim c : nat) :=
    let b := tab8 spp_exp (N.of_nat c) in if Nat.ltb i lim then tab8 spp_exp b else b in
  let f j := wadd 8 (nth ((i - 1 + j) mod 17) ka 0) (bias 16 (17 * i + j + 1))%nat in
  let g j := wadd 8 (nth ((i + j) mod 17) kb 0) (bias 15 (17 * (i + 1) + j + 1))%nat in
  (ks ++ map f (seq 0 16) ++ map g (seq 0 16), ka, kb).
(** saferpp.c:303-361: sixteen bytes are read from key and from key2, whatever key_len is *)
Definition spp_setup (r : N) (key : list N) : res saferpp :=
  let key2 := if Nat.ltb 16 (length key) then skipn 16 key else key in
  let* a := sf_key key2 0 16 in
  let* b := sf_key key 0 16 in
  let ka := sf_parity (map (fun v => rol 8 v 5) a) in
  let kb := sf_parity b in
  let '(ks, _, _) := pfor (N.to_nat r) 1 spp_step (b, ka, kb) in
  Ok {| spp_r := r; spp_k := ks |}.

(** saferpp.c:424-435 *)
Definition saferpp_maxkey : nat := 32.
(** saferpp.c:379-383 and 405-409 *)
Definition saferpp_rounds (r : N) (key : list N) : N :=
  if r =? 0 then (if Nat.ltb 16 (length key) then 10 else 7) else r.
(** saferpp.c:369-395 *)
Definition saferpp_create (r : N) (key : list N) : res saferpp :=
  assert_ (key_len_ok saferpp_maxkey key)
    (let r := saferpp_rounds r key in
     fits (32 * r + 16) (wadd 32 (wshl 32 r 5) 16) (spp_setup r key)).
(** saferpp.c:397-422 *)
Definition saferpp_recreate (s : saferpp) (r : N) (key : list N) : res saferpp :=
  assert_ (key_len_ok saferpp_maxkey key)
    (let r := saferpp_rounds r key in if r =? spp_r s then spp_setup r key else Err UseAfterFree).
