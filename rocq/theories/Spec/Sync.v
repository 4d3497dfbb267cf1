(** What a change of the ciphertext does to the plaintext. *)
From Coq Require Import NArith Arith List.
From Verif Require Import Lib.Res Spec.Modes.
Import ListNotations.

(** [ct'] is [ct] with block number [i] replaced by a different one. *)
Definition block_replaced (bs i : nat) (ct ct' : list N) : Prop :=
  length ct' = length ct /\ block bs i ct' <> block bs i ct /\ forall j, j <> i -> block bs j ct' = block bs j ct.

(** The damage stays in block [i]. *)
Definition damage_stays (bs i : nat) (pt pt' : list N) : Prop :=
  length pt' = length pt /\ block bs i pt' <> block bs i pt /\ forall j, j <> i -> block bs j pt' = block bs j pt.

(** CBC: block [i] is damaged, block [i + 1] changes in exactly the bits in which the ciphertext was changed, everything else is as before. *)
Definition damage_cbc (bs i : nat) (ct ct' pt pt' : list N) : Prop :=
  length pt' = length pt /\ block bs i pt' <> block bs i pt /\
  ((S i + 1) * bs <= length ct -> xor_bytes (block bs (S i) pt') (block bs (S i) pt) = xor_bytes (block bs i ct') (block bs i ct)) /\
  forall j, j <> i -> j <> S i -> block bs j pt' = block bs j pt.

(** CFB: block [i] changes in exactly the bits in which the ciphertext was changed, block [i + 1] is damaged, everything else is as before. *)
Definition damage_cfb (bs i : nat) (ct ct' pt pt' : list N) : Prop :=
  length pt' = length pt /\
  xor_bytes (block bs i pt') (block bs i pt) = xor_bytes (block bs i ct') (block bs i ct) /\
  ((S i + 1) * bs <= length ct -> block bs (S i) pt' <> block bs (S i) pt) /\
  forall j, j <> i -> j <> S i -> block bs j pt' = block bs j pt.

(** Stream ciphers: the plaintext changes in exactly the bits in which the ciphertext was changed. *)
Definition damage_bits (ct ct' pt pt' : list N) : Prop := length pt' = length pt /\ xor_bytes pt' pt = xor_bytes ct' ct.
