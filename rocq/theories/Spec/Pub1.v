(** Published ciphers with S-boxes: SM4, SEED, Skipjack, SHACAL-2. *)
From Coq Require Import NArith Arith List Bool.
From Verif Require Import Lib.Bytes Spec.Words Spec.Gf Spec.Affine Spec.Arx Spec.Sha2.
Import ListNotations.
Local Open Scope N_scope.

(** * GB/T 32907-2016 (SM4) *)
(** The S-box of Liu and others, "Analysis of the SMS4 block cipher": two affine maps around the inversion modulo
    x^8 + x^7 + x^6 + x^5 + x^4 + x^2 + 1 *)
Definition sm4_A : list N := [0xD3; 0xE9; 0xF4; 0x7A; 0x3D; 0x9E; 0x4F; 0xA7].
Definition sm4_sbox (x : N) : N := N.lxor (mat_vec sm4_A (gf_inv 0x1F5 (N.lxor (mat_vec sm4_A x) 0xD3))) 0xD3.
Definition sm4_T (x : N) : N :=
  let b := on_bytes 4 sm4_sbox x in
  N.lxor (N.lxor (N.lxor (N.lxor b (rotl 32 b 2)) (rotl 32 b 10)) (rotl 32 b 18)) (rotl 32 b 24).
Definition sm4_T' (x : N) : N :=
  let b := on_bytes 4 sm4_sbox x in N.lxor (N.lxor b (rotl 32 b 13)) (rotl 32 b 23).
(** X(i+4) = X(i) + T(X(i+1) + X(i+2) + X(i+3) + rk), the words i .. i + 3 in a list *)
Definition sm4_next (T : N -> N) (X : list N) (rk : N) : list N :=
  [word X 1; word X 2; word X 3; N.lxor (word X 0) (T (N.lxor (N.lxor (N.lxor (word X 1) (word X 2)) (word X 3)) rk))].
(** byte j of CK(i) is 7 (4 i + j) modulo 256 *)
Definition sm4_CK (i : nat) : N := be_val (map (fun j => (7 * N.of_nat (4 * i + j)) mod 256) (seq 0 4)).
Definition sm4_FK : list N := [0xA3B1BAC6; 0x56AA3350; 0x677D9197; 0xB27022DC].
(** rk(i) = K(i+4) *)
Definition sm4_keys (key : list N) : list N :=
  snd (fold_left (fun s i => let K := sm4_next sm4_T' (fst s) (sm4_CK i) in (K, snd s ++ [word K 3])) (seq 0 32)
    (xor_list (be_words 4 4 key) sm4_FK, [])).
Definition sm4_cipher (key pt : list N) : list N :=
  be_string 4 (rev (fold_left (sm4_next sm4_T) (sm4_keys (zero_pad 16 key)) (be_words 4 4 pt))).

(** * RFC 4269 (SEED) *)
Definition seed_A1 : list N := [0x8A; 0xFE; 0x85; 0x42; 0x45; 0x21; 0x88; 0x14].
Definition seed_A2 : list N := [0x45; 0x85; 0xFE; 0x21; 0x8A; 0x88; 0x42; 0x14].
(** powers modulo x^8 + x^6 + x^5 + x + 1 *)
Definition seed_S1 (x : N) : N := N.lxor (mat_vec seed_A1 (gf_pow 0x163 x 247)) 169.
Definition seed_S2 (x : N) : N := N.lxor (mat_vec seed_A2 (gf_pow 0x163 x 251)) 56.
(** the function G: X3 .. X0 are the bytes, most significant first, and so are Z3 .. Z0 *)
Definition seed_m : list N := [0xFC; 0xF3; 0xCF; 0x3F].
Definition seed_G (x : N) : N :=
  let X := le_bytes 4 x in
  let Y := [seed_S1 (word X 0); seed_S2 (word X 1); seed_S1 (word X 2); seed_S2 (word X 3)] in
  let Z i := fold_left N.lxor (map (fun j => N.land (word Y j) (word seed_m ((i + j) mod 4))) (seq 0 4)) 0 in
  le_val (map Z (seq 0 4)).
(** the function F of the right half (C, D) and the round key *)
Definition seed_F (C D K0 K1 : N) : N * N :=
  let c := N.lxor C K0 in
  let d := N.lxor D K1 in
  let a := seed_G (N.lxor c d) in
  let b := seed_G (add32 c a) in
  let e := seed_G (add32 a b) in
  (add32 b e, e).
(** KC(i) is the golden ratio rotated left by i *)
Definition seed_KC (i : nat) : N := rotl 32 golden (N.of_nat (i mod 32)).
Definition minus32 (x y : N) : N := (x + 2 ^ 32 - y) mod 2 ^ 32.
(** One step of the key schedule on A || B and C || D, numbers of 64 bits: A || B is rotated right after the rounds
    1, 3, .. and C || D left after the rounds 2, 4, .. *)
Definition seed_more (s : N * N * list (N * N)) (i : nat) : N * N * list (N * N) :=
  let '(AB, CD, ks) := s in
  let A := AB / 2 ^ 32 in let B := AB mod 2 ^ 32 in
  let C := CD / 2 ^ 32 in let D := CD mod 2 ^ 32 in
  let k := (seed_G (minus32 (add32 A C) (seed_KC i)), seed_G (add32 (minus32 B D) (seed_KC i))) in
  (if Nat.even i then rotr 64 AB 8 else AB, if Nat.even i then CD else rotl 64 CD 8, ks ++ [k]).
Definition seed_keys (key : list N) : list (N * N) :=
  let w := be_words 8 2 key in snd (fold_left seed_more (seq 0 16) (word w 0, word w 1, [])).
(** L, R -> R, L + F(R); the last swap is undone *)
Definition seed_feistel (v : (N * N) * (N * N)) (k : N * N) : (N * N) * (N * N) :=
  let '(L, R) := v in
  let f := seed_F (fst R) (snd R) (fst k) (snd k) in
  (R, (N.lxor (fst L) (fst f), N.lxor (snd L) (snd f))).
Definition seed_cipher (key pt : list N) : list N :=
  let w := be_words 4 4 pt in
  let '(L, R) := fold_left seed_feistel (seed_keys (zero_pad 16 key)) ((word w 0, word w 1), (word w 2, word w 3)) in
  be_string 4 [fst R; snd R; fst L; snd L].

(** * NIST, "SKIPJACK and KEA algorithm specifications" 2.0 *)
Definition sj_F : list N :=
  [0xa3; 0xd7; 0x09; 0x83; 0xf8; 0x48; 0xf6; 0xf4; 0xb3; 0x21; 0x15; 0x78; 0x99; 0xb1; 0xaf; 0xf9;
   0xe7; 0x2d; 0x4d; 0x8a; 0xce; 0x4c; 0xca; 0x2e; 0x52; 0x95; 0xd9; 0x1e; 0x4e; 0x38; 0x44; 0x28;
   0x0a; 0xdf; 0x02; 0xa0; 0x17; 0xf1; 0x60; 0x68; 0x12; 0xb7; 0x7a; 0xc3; 0xe9; 0xfa; 0x3d; 0x53;
   0x96; 0x84; 0x6b; 0xba; 0xf2; 0x63; 0x9a; 0x19; 0x7c; 0xae; 0xe5; 0xf5; 0xf7; 0x16; 0x6a; 0xa2;
   0x39; 0xb6; 0x7b; 0x0f; 0xc1; 0x93; 0x81; 0x1b; 0xee; 0xb4; 0x1a; 0xea; 0xd0; 0x91; 0x2f; 0xb8;
   0x55; 0xb9; 0xda; 0x85; 0x3f; 0x41; 0xbf; 0xe0; 0x5a; 0x58; 0x80; 0x5f; 0x66; 0x0b; 0xd8; 0x90;
   0x35; 0xd5; 0xc0; 0xa7; 0x33; 0x06; 0x65; 0x69; 0x45; 0x00; 0x94; 0x56; 0x6d; 0x98; 0x9b; 0x76;
   0x97; 0xfc; 0xb2; 0xc2; 0xb0; 0xfe; 0xdb; 0x20; 0xe1; 0xeb; 0xd6; 0xe4; 0xdd; 0x47; 0x4a; 0x1d;
   0x42; 0xed; 0x9e; 0x6e; 0x49; 0x3c; 0xcd; 0x43; 0x27; 0xd2; 0x07; 0xd4; 0xde; 0xc7; 0x67; 0x18;
   0x89; 0xcb; 0x30; 0x1f; 0x8d; 0xc6; 0x8f; 0xaa; 0xc8; 0x74; 0xdc; 0xc9; 0x5d; 0x5c; 0x31; 0xa4;
   0x70; 0x88; 0x61; 0x2c; 0x9f; 0x0d; 0x2b; 0x87; 0x50; 0x82; 0x54; 0x64; 0x26; 0x7d; 0x03; 0x40;
   0x34; 0x4b; 0x1c; 0x73; 0xd1; 0xc4; 0xfd; 0x3b; 0xcc; 0xfb; 0x7f; 0xab; 0xe6; 0x3e; 0x5b; 0xa5;
   0xad; 0x04; 0x23; 0x9c; 0x14; 0x51; 0x22; 0xf0; 0x29; 0x79; 0x71; 0x7e; 0xff; 0x8c; 0x0e; 0xe2;
   0x0c; 0xef; 0xbc; 0x72; 0x75; 0x6f; 0x37; 0xa1; 0xec; 0xd3; 0x8e; 0x62; 0x8b; 0x86; 0x10; 0xe8;
   0x08; 0x77; 0x11; 0xbe; 0x92; 0x4f; 0x24; 0xc5; 0x32; 0x36; 0x9d; 0xcf; 0xf3; 0xa6; 0xbb; 0xac;
   0x5e; 0x6c; 0xa9; 0x13; 0x57; 0x25; 0xb5; 0xe3; 0xbd; 0xa8; 0x3a; 0x01; 0x05; 0x59; 0x2a; 0x46].
(** G in step [k] (from 0): four Feistel rounds on the bytes g1, g2 with the cryptovariable bytes 4k .. 4k + 3 modulo 10 *)
Definition sj_G (cv : list N) (k : nat) (w : N) : N :=
  let F x j := nth (N.to_nat (N.lxor x (nth ((4 * k + j) mod 10) cv 0))) sj_F 0 in
  let g1 := w / 256 in let g2 := w mod 256 in
  let g3 := N.lxor (F g2 0%nat) g1 in
  let g4 := N.lxor (F g3 1%nat) g2 in
  let g5 := N.lxor (F g4 2%nat) g3 in
  let g6 := N.lxor (F g5 3%nat) g4 in
  g5 * 256 + g6.
(** the stepping rules A and B; the counter is [k] + 1 *)
Definition sj_rule_A (cv : list N) (w : list N) (k : nat) : list N :=
  let g := sj_G cv k (word w 0) in [N.lxor (N.lxor g (word w 3)) (N.of_nat (k + 1)); g; word w 1; word w 2].
Definition sj_rule_B (cv : list N) (w : list N) (k : nat) : list N :=
  [word w 3; sj_G cv k (word w 0); N.lxor (N.lxor (word w 0) (word w 1)) (N.of_nat (k + 1)); word w 2].
Definition sj_step (cv : list N) (w : list N) (k : nat) : list N :=
  if Nat.even (k / 8) then sj_rule_A cv w k else sj_rule_B cv w k.
Definition sj_words (cv w : list N) : list N := fold_left (sj_step cv) (seq 0 32) w.
(** The library takes all byte strings reversed: the cryptovariable, the words w1 .. w4 and the bytes in a word. *)
Definition skipjack_cipher (key pt : list N) : list N :=
  rev (be_string 2 (sj_words (rev (zero_pad 10 key)) (be_words 2 4 (rev pt)))).

(** * Handschuh, Naccache, "SHACAL": the compression function of SHA-256 without the final addition, the key is the
    message block *)
Definition shacal2_cipher (key pt : list N) : list N :=
  be_string 4 (sha2_steps f256 (firstn 64 (f_k f256)) (schedule f256 48 (be_words 4 16 (zero_pad 64 key))) (be_words 4 8 pt)).
