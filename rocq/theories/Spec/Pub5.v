(** Schneier, Kelsey, Whiting, Wagner, Hall, Ferguson: Twofish, a 128-bit block cipher. *)
From Coq Require Import NArith Arith List Bool.
From Verif Require Import Lib.Res Lib.Bytes Spec.Words Spec.Gf Spec.Affine.
Import ListNotations.
Local Open Scope N_scope.

(** section 4.3.5, the permutations q0 and q1 *)
Definition ror4 (x : N) : N := x / 2 + 8 * (x mod 2).
Definition tf_q (t : list (list N)) (x : N) : N :=
  let T i x := nth (N.to_nat x) (nth i t []) 0 in
  let a0 := x / 16 in let b0 := x mod 16 in
  let a1 := N.lxor a0 b0 in let b1 := N.lxor (N.lxor a0 (ror4 b0)) ((8 * a0) mod 16) in
  let a2 := T 0%nat a1 in let b2 := T 1%nat b1 in
  let a3 := N.lxor a2 b2 in let b3 := N.lxor (N.lxor a2 (ror4 b2)) ((8 * a2) mod 16) in
  let a4 := T 2%nat a3 in let b4 := T 3%nat b3 in
  16 * b4 + a4.
Definition tf_t0 : list (list N) :=
  [[0x8; 0x1; 0x7; 0xD; 0x6; 0xF; 0x3; 0x2; 0x0; 0xB; 0x5; 0x9; 0xE; 0xC; 0xA; 0x4];
   [0xE; 0xC; 0xB; 0x8; 0x1; 0x2; 0x3; 0x5; 0xF; 0x4; 0xA; 0x6; 0x7; 0x0; 0x9; 0xD];
   [0xB; 0xA; 0x5; 0xE; 0x6; 0xD; 0x9; 0x0; 0xC; 0x8; 0xF; 0x3; 0x2; 0x4; 0x7; 0x1];
   [0xD; 0x7; 0xF; 0x4; 0x1; 0x2; 0x6; 0xE; 0x9; 0xB; 0x3; 0x0; 0x8; 0x5; 0xC; 0xA]].
Definition tf_t1 : list (list N) :=
  [[0x2; 0x8; 0xB; 0xD; 0xF; 0x7; 0x6; 0xE; 0x3; 0x1; 0x9; 0x4; 0x0; 0xA; 0xC; 0x5];
   [0x1; 0xE; 0x2; 0xB; 0x4; 0xC; 0x3; 0x7; 0x6; 0xD; 0xA; 0x5; 0xF; 0x9; 0x0; 0x8];
   [0x4; 0xC; 0x7; 0x5; 0x1; 0x6; 0x9; 0xA; 0x0; 0xE; 0xD; 0x8; 0x2; 0xB; 0x3; 0xF];
   [0xB; 0x9; 0x5; 0x1; 0xC; 0x3; 0xD; 0xE; 0x6; 0x4; 0x7; 0xF; 0x2; 0x0; 0x8; 0xA]].
Definition tf_q0 : N -> N := tf_q tf_t0.
Definition tf_q1 : N -> N := tf_q tf_t1.

(** section 4.2 and 4.3.2: the matrices; bytes of words from the least significant *)
Definition tf_MDS : list (list N) :=
  [[0x01; 0xEF; 0x5B; 0x5B]; [0x5B; 0xEF; 0xEF; 0x01]; [0xEF; 0x5B; 0x01; 0xEF]; [0xEF; 0x01; 0xEF; 0x5B]].
Definition tf_RS : list (list N) :=
  [[0x01; 0xA4; 0x55; 0x87; 0x5A; 0x58; 0xDB; 0x9E]; [0xA4; 0x56; 0x82; 0xF3; 0x1E; 0xC6; 0x68; 0xE5];
   [0x02; 0xA1; 0xFC; 0xC1; 0x47; 0xAE; 0x3D; 0x19]; [0xA4; 0x55; 0x87; 0x5A; 0x58; 0xDB; 0x9E; 0x03]].
(** section 4.3.2, the function h: the permutation of byte j in the step with the word L_i, the last ones *)
Definition tf_stage (i : nat) : list (N -> N) :=
  nth i [[tf_q0; tf_q0; tf_q1; tf_q1]; [tf_q0; tf_q1; tf_q0; tf_q1]; [tf_q1; tf_q1; tf_q0; tf_q0]; [tf_q1; tf_q0; tf_q0; tf_q1]] [].
Definition tf_last : list (N -> N) := [tf_q1; tf_q0; tf_q1; tf_q0].
Definition tf_each (qs : list (N -> N)) (y : list N) : list N := map (fun p => fst p (snd p)) (combine qs y).
Definition tf_h (X : N) (L : list N) : N :=
  let y := fold_left (fun y i => xor_list (tf_each (tf_stage i) y) (le_bytes 4 (nth i L 0))) (rev (seq 0 (length L))) (le_bytes 4 X) in
  le_val (gf_mat 0x169 tf_MDS (tf_each tf_last y)).

(** section 4.3: a key of 8 k bytes *)
Definition tf_M (key : list N) (odd : nat) : list N :=
  map (fun i => le_val (slice (4 * (2 * i + odd)) 4 key)) (seq 0 (length key / 8)).
Definition tf_S (key : list N) : list N :=
  rev (map (fun i => le_val (gf_mat 0x14D tf_RS (slice (8 * i) 8 key))) (seq 0 (length key / 8))).
Definition tf_rho : N := 2 ^ 24 + 2 ^ 16 + 2 ^ 8 + 1.
Definition tf_K (key : list N) (i : nat) : N :=
  let j := N.of_nat (i / 2) in
  let A := tf_h (2 * j * tf_rho) (tf_M key 0) in
  let B := rotl 32 (tf_h ((2 * j + 1) * tf_rho) (tf_M key 1)) 8 in
  if Nat.even i then (A + B) mod 2 ^ 32 else rotl 32 ((A + 2 * B) mod 2 ^ 32) 9.

(** sections 4 and 4.1 *)
Definition tf_round (g : N -> N) (K : nat -> N) (R : N * N * N * N) (r : nat) : N * N * N * N :=
  let '(R0, R1, R2, R3) := R in
  let T0 := g R0 in
  let T1 := g (rotl 32 R1 8) in
  let F0 := (T0 + T1 + K (2 * r + 8)%nat) mod 2 ^ 32 in
  let F1 := (T0 + 2 * T1 + K (2 * r + 9)%nat) mod 2 ^ 32 in
  (rotr 32 (N.lxor R2 F0) 1, N.lxor (rotl 32 R3 1) F1, R0, R1).
Definition twofish_full (key pt : list N) : list N :=
  let K := tf_K key in
  let g x := tf_h x (tf_S key) in
  let P := le_words 4 4 pt in
  let w i := N.lxor (nth i P 0) (K i) in
  let '(R0, R1, R2, R3) := fold_left (tf_round g K) (seq 0 16) (w 0%nat, w 1%nat, w 2%nat, w 3%nat) in
  le_string 4 [N.lxor R2 (K 4%nat); N.lxor R3 (K 5%nat); N.lxor R0 (K 6%nat); N.lxor R1 (K 7%nat)].
(** section 4.3: shorter keys are filled with zeros to the next of 128, 192 and 256 bits *)
Definition tf_size (n : nat) : nat := if Nat.leb n 16 then 16 else if Nat.leb n 24 then 24 else 32.
Definition twofish_cipher (key pt : list N) : list N := twofish_full (zero_pad (tf_size (length key)) key) pt.
Definition twofish_lengths (key : list N) : Prop := (8 < length key <= 32)%nat.
