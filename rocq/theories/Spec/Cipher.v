(** What the modes ask of a block cipher object made by a successful create. *)
From Coq Require Import NArith List.
From Verif Require Import Lib.Res Lib.Bytes Spec.Block Model.BlockApi.

Definition works (c : bcipher) (s : bc_st c) : Prop :=
  (0 < bc_bs c)%nat /\ permutation (bc_bs c) (bc_enc c s) (bc_dec c s).

(** the function computed by a block operation *)
Definition fn (E : list N -> res (list N)) (x : list N) : list N :=
  match E x with Ok y => y | Err _ => nil end.

(** Every accepted key gives a working object with the default rounds. *)
Definition works_default (c : bcipher) : Prop :=
  forall key, key_ok (bc_maxkey c) key -> exists s, bc_create c 0 key = Ok s /\ works c s.

(** The same for chosen round counts, under a condition on rounds and key. *)
Definition works_when (ok : N -> list N -> Prop) (c : bcipher) : Prop :=
  forall r key, key_ok (bc_maxkey c) key -> ok r key -> exists s, bc_create c r key = Ok s /\ works c s.

(** Distinct blocks have distinct images and every block is an image. *)
Definition bijective (n : nat) (E : list N -> res (list N)) : Prop :=
  (forall x y z, blk n x -> blk n y -> E x = Ok z -> E y = Ok z -> x = y) /\
  (forall z, blk n z -> exists x, blk n x /\ E x = Ok z).

(** Re-keying an object is the same as creating one. *)
Definition recreate_ok (c : bcipher) (s : bc_st c) (r : N) (key : list N) : Prop :=
  bc_recreate c s r key = bc_create c r key.

(** Re-keying with the round count and key length of the old object. *)
Definition rekey_same (c : bcipher) : Prop :=
  forall s r key0 key, bc_create c r key0 = Ok s -> length key = length key0 -> recreate_ok c s r key.
(** ... with the round count of the old object and any key *)
Definition rekey_rounds (c : bcipher) : Prop :=
  forall s r key0 key, bc_create c r key0 = Ok s -> recreate_ok c s r key.
Definition rekey_any (c : bcipher) : Prop := forall s r key, recreate_ok c s r key.
(** A re-keying that touches the object after it was freed. *)
Definition rekey_uaf (c : bcipher) : Prop :=
  exists s s' r0 key0 r key, bc_create c r0 key0 = Ok s /\ bc_create c r key = Ok s' /\ bc_recreate c s r key = Err UseAfterFree.
(** ... even with the default round count *)
Definition rekey_uaf_default (c : bcipher) : Prop :=
  exists s s' key0 key, bc_create c 0 key0 = Ok s /\ bc_create c 0 key = Ok s' /\ bc_recreate c s 0 key = Err UseAfterFree.

(** Zero bytes after the key change nothing, as long as [same] finds the two lengths in the
    same class ([fun _ _ => True] for ciphers with one key size). *)
Definition zero_extends (same : nat -> nat -> Prop) (c : bcipher) : Prop :=
  forall r key n, key_ok (bc_maxkey c) key -> (length key + n <= bc_maxkey c)%nat -> same (length key) (length key + n)%nat ->
  bc_create c r (key ++ repeat 0%N n) = bc_create c r key.
