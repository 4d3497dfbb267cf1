(** What a user expects of a block cipher object. *)
From Coq Require Import NArith List.
From Verif Require Import Lib.Res Lib.Bytes.
Local Open Scope N_scope.

(** [E] maps every block of [n] bytes to a block of [n] bytes, without undefined
    behaviour, and [D] gives the argument back. *)
Definition undoes (n : nat) (E D : list N -> res (list N)) : Prop :=
  forall pt, length pt = n -> bytes_ok pt ->
  exists ct, E pt = Ok ct /\ length ct = n /\ bytes_ok ct /\ D ct = Ok pt.

Definition permutation (n : nat) (E D : list N -> res (list N)) : Prop :=
  undoes n E D /\ undoes n D E.

(** A key the wrapper in lib/block.c accepts (lib/block.c:37-39). *)
Definition key_ok (maxkey : nat) (key : list N) : Prop :=
  bytes_ok key /\ (0 < length key <= maxkey)%nat.
