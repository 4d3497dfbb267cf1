(** Destroyed objects leave nothing of the key behind. *)
From Coq Require Import NArith Arith List.
From Verif Require Import Lib.Res Model.BlockApi Model.Destroy.
Import ListNotations.

(** Nothing but zeros where key dependent data can be. *)
Definition scrubbed (c : cell) : Prop := Forall (eq 0%N) (skipn (c_open c) (c_bytes c)).

(** A kind of object: [P h a fp] when there is one at [a] and [fp] are all the pieces of memory that belong to it. *)
Definition thing : Type := dheap -> nat -> list nat -> Prop.

(** [destroy] frees exactly the memory of the object, each piece once, each scrubbed when it is freed, and nothing else changes. *)
Definition leaves_nothing (P : thing) (destroy : nat -> dprog) : Prop := forall h a fp, P h a fp ->
  exists h' freed, destroy a h = Ok h' /\ dh_freed h' = freed ++ dh_freed h /\ length freed = length fp /\ Forall scrubbed freed /\
    (forall x, In x fp -> dh_cell h' x = None) /\ (forall x, ~ In x fp -> dh_cell h' x = dh_cell h x).

(** One piece of memory of [st + n] bytes, all of which may depend on the key. *)
Definition plain_thing (st : nat) (n : N) : thing := fun h a fp => a <> 0 /\ fp = [a] /\
  exists b, dh_cell h a = Some {| c_ptrs := []; c_bytes := b; c_open := 0 |} /\ length b = st + N.to_nat n.
(** A descriptor made by kripto_stream_ctr and the like. *)
Definition desc_thing : thing := fun h a fp => a <> 0 /\ fp = [a] /\ exists c, dh_cell h a = Some c /\ c_open c = length (c_bytes c).
(** The same with another object inside. *)
Definition one_thing (P : thing) (st : nat) (n : N) : thing := fun h a fp => a <> 0 /\
  exists p f b, P h p f /\ ~ In a f /\ fp = a :: f /\ dh_cell h a = Some {| c_ptrs := [p]; c_bytes := b; c_open := 0 |} /\ length b = st + N.to_nat n.
(** A structure of pointers and numbers with another object inside. *)
Definition holder (P : thing) : thing := fun h a fp => a <> 0 /\
  exists p f c, P h p f /\ ~ In a f /\ fp = a :: f /\ dh_cell h a = Some c /\ c_ptrs c = [p] /\ c_open c = length (c_bytes c).
(** EAX: a structure of pointers and numbers, then [len] bytes. *)
Definition apart (l : list (list nat)) : Prop := NoDup (concat l).
Definition eax_thing (S M : thing) (st len : nat) : thing := fun h a fp => a <> 0 /\
  exists s m k d e fs fm fk b, S h s fs /\ M h m fm /\ M h k fk /\ desc_thing h d [d] /\ desc_thing h e [e] /\
    fp = a :: fs ++ fm ++ fk ++ [d; e] /\ apart [[a]; fs; fm; fk; [d]; [e]] /\
    dh_cell h a = Some {| c_ptrs := [s; m; k; d; e]; c_bytes := b; c_open := st |} /\ length b = st + len.
(** EAX2: there may be room behind the [len] bytes, which must be empty. *)
Definition eax2_thing (S M : thing) (st len : nat) : thing := fun h a fp => a <> 0 /\
  exists s m k fs fm fk b, S h s fs /\ M h m fm /\ M h k fk /\
    fp = a :: fs ++ fm ++ fk /\ apart [[a]; fs; fm; fk] /\
    dh_cell h a = Some {| c_ptrs := [s; m; k]; c_bytes := b; c_open := st |} /\ st + len <= length b /\ Forall (eq 0%N) (skipn (st + len) b).
Definition random_thing (S : thing) (st : nat) : thing := fun h a fp => a <> 0 /\
  exists s d fs b, S h s fs /\ desc_thing h d [d] /\ fp = a :: fs ++ [d] /\ apart [[a]; fs; [d]] /\
    dh_cell h a = Some {| c_ptrs := [s; d]; c_bytes := b; c_open := 0 |} /\ length b = st.
(** Objects are found where they are whatever happens elsewhere. *)
Definition local (P : thing) : Prop := forall h h' a fp, P h a fp -> (forall x, In x fp -> dh_cell h' x = dh_cell h x) -> P h' a fp.

(** The life of a block cipher object: made with a piece of [alloc r key] bytes behind the structure, then given other keys in place. *)
Inductive live (c : bcipher) (alloc : N -> list N -> N) : N -> bc_st c -> Prop :=
| live_create r key s : bc_create c r key = Ok s -> live c alloc (alloc r key) s
| live_recreate n s r key s' : live c alloc n s -> bc_recreate c s r key = Ok s' -> live c alloc n s'.
(** destroy leaves nothing of it *)
Definition block_wiped (c : bcipher) (alloc : N -> list N -> N) (wiped : bc_st c -> N) : Prop :=
  forall st n s, live c alloc n s -> leaves_nothing (plain_thing st n) (plain_destroy st (wiped s)).
