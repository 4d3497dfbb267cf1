(** Keccak and SHA-3 (FIPS 202): the permutation by its five steps on a 5 x 5 array of lanes, the sponge, and the
    multi-rate padding with domain bits. *)
From Coq Require Import NArith Arith List Bool.
From Verif Require Import Lib.Bytes Spec.Words Spec.Modes Spec.Hash.
Import ListNotations.
Local Open Scope N_scope.

(** lane (x, y) is number 5 y + x; coordinates are modulo 5 *)
Definition lane (A : list N) (x y : nat) : N := nth (5 * (y mod 5) + x mod 5) A 0.
Definition lanes (f : nat -> nat -> N) : list N := map (fun i => f (i mod 5)%nat (i / 5)%nat) (seq 0 25).

(** 3.2.1 *)
Definition theta (w : N) (A : list N) : list N :=
  let C x := fold_left N.lxor (map (lane A x) [1; 2; 3; 4]%nat) (lane A x 0) in
  let D x := N.lxor (C (x + 4)%nat) (rotl w (C (x + 1)%nat) 1) in
  lanes (fun x y => N.lxor (lane A x y) (D x)).
(** 3.2.2: from (1, 0), lane number t is rotated by (t + 1)(t + 2) / 2, the next one is (y, 2 x + 3 y) *)
Fixpoint rho_walk (k : nat) (t : N) (x y : nat) : list (nat * nat * N) :=
  match k with O => [] | S k => (x, y, (t + 1) * (t + 2) / 2) :: rho_walk k (t + 1) y ((2 * x + 3 * y) mod 5)%nat end.
Definition rho_offset (x y : nat) : N :=
  match find (fun q => Nat.eqb (fst (fst q)) x && Nat.eqb (snd (fst q)) y) (rho_walk 24 0 1 0) with Some q => snd q | None => 0 end.
Definition rho (w : N) (A : list N) : list N := lanes (fun x y => rotl w (lane A x y) (rho_offset x y mod w)).
(** 3.2.3, 3.2.4 *)
Definition pi_step (A : list N) : list N := lanes (fun x y => lane A (x + 3 * y) x).
Definition chi (w : N) (A : list N) : list N :=
  lanes (fun x y => N.lxor (lane A x y) (N.land (2 ^ w - 1 - lane A (x + 1) y) (lane A (x + 2) y))).
(** 3.2.5, algorithm 5: the shift register over R[0] .. R[7] *)
Definition rc_next (R : list bool) : list bool :=
  let R := false :: R in
  map (fun i => let b := nth i R false in if existsb (Nat.eqb i) [0; 4; 5; 6]%nat then xorb b (nth 8 R false) else b) (seq 0 8).
Definition rc_bit (t : nat) : bool := nth 0 (Nat.iter (t mod 255) rc_next [true; false; false; false; false; false; false; false]) false.
(** bit 2^j - 1 of the constant of round i is rc(j + 7 i), for j = 0 .. log2 w *)
Definition round_constant (w : N) (i : nat) : N :=
  fold_left (fun a j => if rc_bit (j + 7 * i) then a + 2 ^ (2 ^ N.of_nat j - 1) else a) (seq 0 (S (N.to_nat (N.log2 w)))) 0.
Definition iota_step (RC : N) (A : list N) : list N := lanes (fun x y => if Nat.eqb x 0 && Nat.eqb y 0 then N.lxor (lane A x y) RC else lane A x y).
(** 3.3: [rounds] rounds from number 0; Keccak-f has 12 + 2 log2 w of them *)
Definition keccak_round (w RC : N) (A : list N) : list N := iota_step RC (chi w (pi_step (rho w (theta w A)))).
Definition keccak_p (w : N) (RC : nat -> N) (rounds : nat) (A : list N) : list N :=
  fold_left (fun A i => keccak_round w (RC i) A) (seq 0 rounds) A.
(** 3.1.2: on strings of 25 lanes of [k] bytes (the lowest bit first, so little endian) *)
Definition keccak_bytes (k : nat) (RC : nat -> N) (rounds : nat) (S : list N) : list N :=
  le_string k (keccak_p (8 * N.of_nat k) RC rounds (le_words k 25 S)).

(** 4: the sponge.  [f] works on strings of [b] bytes; algorithm 8 *)
Definition xor_in (S P : list N) : list N := map (fun i => N.lxor (nth i S 0) (nth i P 0)) (seq 0 (length S)).
Definition absorb (f : list N -> list N) (rate : nat) (S P : list N) : list N := fold_left (fun S B => f (xor_in S B)) (blocks rate P) S.
(** byte number i of the output is byte i mod rate after i / rate more permutations *)
Definition squeeze (f : list N -> list N) (rate n : nat) (S : list N) : list N :=
  map (fun i => nth (i mod rate) (Nat.iter (i / rate) f S) 0) (seq 0 n).
(** 5.1: domain bits and the first 1 of the padding are in the byte [dom], the last 1 is the top bit of the block *)
Definition keccak_pad (rate : nat) (dom : N) (m : list N) : list N :=
  let q := (rate - length m mod rate)%nat in
  m ++ (if Nat.eqb q 1 then [dom + 0x80] else dom :: repeat 0 (q - 2) ++ [0x80]).
Definition sponge (f : list N -> list N) (b rate : nat) (dom : N) (n : nat) (m : list N) : list N :=
  squeeze f rate n (absorb f rate (repeat 0 b) (keccak_pad rate dom m)).

(** Keccak-f[1600] and Keccak-f[800]; Keccak[c] and SHA-3 with c = 16 n bits *)
Definition keccak_f1600 : list N -> list N := keccak_bytes 8 (round_constant 64) 24.
Definition keccak_f800 : list N -> list N := keccak_bytes 4 (round_constant 32) 22.
Definition keccak1600_sponge (n outlen : nat) : list N -> list N := sponge keccak_f1600 200 (200 - 2 * n) 0x01 outlen.
Definition keccak800_sponge (n outlen : nat) : list N -> list N := sponge keccak_f800 100 (100 - 2 * n) 0x01 outlen.
Definition sha3 (n : nat) : list N -> list N := sponge keccak_f1600 200 (200 - 2 * n) 0x06 n.

(** what keccak800.c has for the constants: the two halves of the 64 bit ones added *)
Definition folded_constant (i : nat) : N := N.lxor (round_constant 64 i mod 2 ^ 32) (round_constant 64 i / 2 ^ 32).

(** the key stream of lib/stream/keccak.c: sponge output of key and IV, with a capacity of two key lengths *)
Definition sponge_stream (f : list N -> list N) (b : nat) (key iv : list N) (i : nat) : N :=
  nth i (sponge f b (b - 2 * length key) 0x01 (S i) (key ++ iv)) 0.
