(** Rotation, byte order and PKCS#7 padding in plain words. *)
From Coq Require Import NArith Arith List.
From Verif Require Import Lib.Res Lib.Bytes.
Local Open Scope N_scope.

(** [y] is the [w] bit word [x] rotated left by [r]: bit [i] moves to [(i + r) mod w]. *)
Definition rotated_left (w x r y : N) : Prop :=
  y < 2 ^ w /\ forall i, i < w -> N.testbit y ((i + r) mod w) = N.testbit x i.
(** ... right: bit [(i + r) mod w] moves to [i] *)
Definition rotated_right (w x r y : N) : Prop :=
  y < 2 ^ w /\ forall i, i < w -> N.testbit y i = N.testbit x ((i + r) mod w).

(** PKCS#7: the number of bytes to add is the distance to the next multiple, never zero. *)
Definition pkcs7_pad (len pad : N) : N := pad - len mod pad.
