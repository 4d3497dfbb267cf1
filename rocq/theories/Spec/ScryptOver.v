(** scrypt whose two working areas lie in the saved blocks [a] and [e] (Spec/Kdf.v has it as it should be).  Beside the block [x] there is
    what the last block function left in its second area, [t]: its blocks of 64 bytes before they are put in order. *)
From Coq Require Import NArith Arith List.
From Verif Require Import Lib.Res Lib.Bytes Spec.Modes Spec.Kdf.
Import ListNotations.

Definition mix_before (r : nat) (b : list N) : list N := concat (mix_chain (slice (64 * (2 * r - 1)) 64 b) (blocks64 (2 * r) b)).
(** block [a] is the block being worked on and block [e] the other area *)
Definition over_saved (a e : nat) (v : list (list N)) (x t : list N) (j : nat) : list N := if (j =? a)%nat then x else if (j =? e)%nat then t else nth j v [].
Fixpoint over_use (a e r : nat) (n : N) (v : list (list N)) (k : nat) (x t : list N) : list N :=
  match k with O => x | S k => let y := xor_bytes x (over_saved a e v x t (integerify r x n)) in over_use a e r n v k (block_mix r y) (mix_before r y) end.
Definition over_mix (a e r : nat) (n : N) (b : list N) : list N :=
  let p := mix_save r (N.to_nat n) b in over_use a e r n (fst p) (N.to_nat n) (snd p) (mix_before r (last (fst p) [])).
Definition over_key (a e : nat) (prf : list N -> list N) (h : nat) (n : N) (r p : nat) (salt : list N) (len : nat) : list N :=
  let b := pbkdf2_key prf h 1 salt (128 * r * p) in
  pbkdf2_key prf h 1 (concat (map (fun i => over_mix a e r n (slice (128 * r * i) (128 * r) b)) (seq 0 p))) len.
