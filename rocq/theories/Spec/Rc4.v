(** RC4 (ARCFOUR) on a permutation seen as a function on [0..255]. *)
From Coq Require Import NArith Arith List.
Import ListNotations.
Local Open Scope nat_scope.

Definition swap (p : nat -> nat) (i j x : nat) : nat := if x =? i then p j else if x =? j then p i else p x.
(** key scheduling: [i] steps done *)
Fixpoint ksa (key : list N) (n : nat) : (nat -> nat) * nat :=
  match n with
  | O => (fun x => x, 0)
  | S i => let '(p, j) := ksa key i in
           let j := (j + p i + N.to_nat (nth (i mod length key) key 0%N)) mod 256 in
           (swap p i j, j)
  end.
(** state after [n] output bytes *)
Fixpoint prga (p0 : nat -> nat) (n : nat) : (nat -> nat) * nat * nat :=
  match n with
  | O => (p0, 0, 0)
  | S n => let '(p, i, j) := prga p0 n in
           let i := (i + 1) mod 256 in
           let j := (j + p i) mod 256 in
           (swap p i j, i, j)
  end.
(** byte number [n] from the table [p0] *)
Definition rc4_out (p0 : nat -> nat) (n : nat) : N :=
  let '(p, i, j) := prga p0 (S n) in
  N.of_nat (p ((p i + p j) mod 256)).
(** byte number [n] of the key stream *)
Definition rc4_ks (key : list N) (n : nat) : N := rc4_out (fst (ksa key 256)) n.
