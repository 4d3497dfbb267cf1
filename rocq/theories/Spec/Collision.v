(** Collisions found in the course of hashing two messages, and the inputs of the compression functions of BLAKE and BLAKE2. *)
From Coq Require Import NArith Arith List Bool.
From Verif Require Import Lib.Word Lib.Res Lib.Bytes Spec.Modes Spec.Hash Spec.Blake Spec.Keccak.
Import ListNotations.
Local Open Scope N_scope.

(** [f] is iterated from [iv] over the inputs [xs] and over the inputs [xs'].  Somewhere on the way, at input [i] of the first and [i'] of
    the second, [f] is given two different pairs of a chain value and an input and has the same result.
    (That such pairs exist at all is clear from their number; here they are the ones met in the two computations.) *)
Definition collision_in {H J : Type} (f : H -> J -> H) (iv : H) (xs xs' : list J) : Prop :=
  exists i i' x x', nth_error xs i = Some x /\ nth_error xs' i' = Some x' /\
    (fold_left f (firstn i xs) iv, x) <> (fold_left f (firstn i' xs') iv, x') /\
    f (fold_left f (firstn i xs) iv) x = f (fold_left f (firstn i' xs') iv) x'.

(** BLAKE: blocks and counters.  Every block counts the bits of the message up to its end. *)
Definition blake_inputs (F : blake_fn) (last : N) (l : list N) : list (list N * N) :=
  let P := blake_pad F last l in let bs := (16 * bl_k F)%nat in
  map (fun i => (block bs i P, 8 * N.of_nat (Nat.min (length l) ((i + 1) * bs)))) (seq 0 (length P / bs)).
Definition blake_step (F : blake_fn) (rounds : nat) (s h : list N) (x : list N * N) : list N := blake_compress F rounds s h (fst x) (snd x).
(** BLAKE2 as the library has it: all whole blocks, then one more block with the flag.  Blocks, counters in bytes, and the flag. *)
Definition blake2_inputs (F : blake_fn) (l : list N) : list (list N * N * bool) :=
  let bs := (16 * bl_k F)%nat in let n := (length l / bs)%nat in let P := l ++ repeat 0 (S n * bs - length l) in
  map (fun i => (block bs i P, N.of_nat ((i + 1) * bs), false)) (seq 0 n) ++ [(block bs n P, N.of_nat (length l), true)].
Definition blake2_step (F : blake_fn) (rounds : nat) (iv h : list N) (x : list N * N * bool) : list N :=
  blake2_compress F rounds iv h (fst (fst x)) (snd (fst x)) (snd x).

(** A sponge has no length in its blocks, so two messages can also meet when one of them leads back to the first state. *)
Definition returns_in {H J : Type} (f : H -> J -> H) (iv : H) (xs : list J) : Prop :=
  exists i, (0 < i <= length xs)%nat /\ fold_left f (firstn i xs) iv = iv.
Definition absorb_step (f : list N -> list N) (S B : list N) : list N := f (xor_in S B).
(** Two messages with the same [n] bytes of output: a collision on the way, a return to the first state,
    or two different last states with the same output. *)
Definition sponge_collision (f : list N -> list N) (b rate n : nat) (dom : N) (m m' : list N) : Prop :=
  let xs := blocks rate (keccak_pad rate dom m) in let xs' := blocks rate (keccak_pad rate dom m') in let iv := repeat 0 b in
  let S := fold_left (absorb_step f) xs iv in let S' := fold_left (absorb_step f) xs' iv in
  collision_in (absorb_step f) iv xs xs' \/ returns_in (absorb_step f) iv xs \/ returns_in (absorb_step f) iv xs' \/
  (S <> S' /\ squeeze f rate n S = squeeze f rate n S').
