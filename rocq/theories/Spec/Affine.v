(** S-boxes from powers in GF(2^8) and affine maps over GF(2); words as strings of bytes. *)
From Coq Require Import NArith Arith List Bool.
From Verif Require Import Lib.Bytes Spec.Words Spec.Gf.
Import ListNotations.
Local Open Scope N_scope.

(** powers by squaring *)
Fixpoint gf_ppow (poly x : N) (n : positive) : N :=
  match n with
  | xH => x
  | xO m => let y := gf_ppow poly x m in gf_mul poly y y
  | xI m => let y := gf_ppow poly x m in gf_mul poly x (gf_mul poly y y)
  end.
Definition gf_pow (poly x n : N) : N := match n with N0 => 1 | Npos p => gf_ppow poly x p end.
(** the multiplicative inverse, 0 for 0 *)
Definition gf_inv (poly x : N) : N := gf_pow poly x 254.
(** the exclusive or of the bits of a byte *)
Definition parity (x : N) : N := fold_left (fun s i => (s + x / 2 ^ N.of_nat i) mod 2) (seq 0 8) 0.
(** the matrix with the given rows times a byte; the first row makes the most significant bit *)
Definition mat_vec (rows : list N) (x : N) : N := fold_left (fun v r => 2 * v + parity (N.land r x)) rows 0.

(** a function of bytes on every byte of a word of [n] bytes *)
Definition on_bytes (n : nat) (S : N -> N) (x : N) : N := be_val (map S (be_bytes n x)).
(** a linear map over GF(2^8) on the bytes of a string, row by row *)
Definition gf_row (poly : N) (row l : list N) : N :=
  fold_left N.lxor (map (fun p => gf_mul poly (fst p) (snd p)) (combine row l)) 0.
Definition gf_mat (poly : N) (rows : list (list N)) (l : list N) : list N := map (fun row => gf_row poly row l) rows.
Definition xor_list (a b : list N) : list N := map (fun p => N.lxor (fst p) (snd p)) (combine a b).
