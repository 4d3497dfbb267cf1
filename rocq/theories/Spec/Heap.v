(** What must hold of allocations, whichever of them fail. *)
From Coq Require Import Arith List Bool.
From Verif Require Import Lib.Res Model.Heap.
Import ListNotations.

(** NULL is no object, and unused addresses are unused. *)
Definition heap_ok (h : heap) : Prop := 0 < hp_next h /\ hp_cell h 0 = None /\ forall a, hp_next h <= a -> hp_cell h a = None.
(** the same objects, with the same pointers *)
Definition same_objects (h h' : heap) : Prop := forall a, hp_cell h' a = hp_cell h a.
(** every allocation succeeds *)
Definition plenty (h : heap) : Prop := forall k, hp_fails h k = false.

(** A life of an object: created, then used and created again in any order, and destroyed; it ends early when create or recreate return NULL.
    The result tells whether it did not. *)
Inductive act := Use | Tag | Again.
Section Life.
  Variable k : kind.
  Fixpoint acts (l : list act) (a : nat) : prog nat :=
    match l with
    | [] => ret a
    | Use :: l => do! kd_use k a in acts l a
    | Tag :: l => do! kd_tag k a in acts l a
    | Again :: l => let! a := kd_recreate k a in if a =? 0 then ret 0 else acts l a
    end.
  Definition begin (l : list act) : prog nat := let! a := kd_create k in if a =? 0 then ret 0 else acts l a.
  Definition life (l : list act) : prog bool := let! a := begin l in if a =? 0 then ret false else do! kd_destroy k a in ret true.
End Life.

(** No access to freed or missing objects, no double free, and all that was allocated is freed. *)
Definition clean {A} (p : prog A) : Prop := forall h, heap_ok h -> exists r h', p h = Ok (r, h') /\ same_objects h h'.
(** It does not fail without need. *)
Definition succeeds (p : prog bool) : Prop := forall h, heap_ok h -> plenty h -> exists h', p h = Ok (true, h') /\ same_objects h h'.
(** On the way the objects of others are left alone, and nothing remains of an object that was not made. *)
Definition tidy (p : prog nat) : Prop := forall h, heap_ok h -> exists r h', p h = Ok (r, h') /\
  (forall a, hp_cell h a <> None -> hp_cell h' a = hp_cell h a) /\ (r = 0 -> same_objects h h').
(** No access to freed or missing objects and no double free, and the objects of others are left alone; something may be left behind. *)
Definition quiet {A} (p : prog A) : Prop := forall h, heap_ok h -> exists r h', p h = Ok (r, h') /\ forall a, hp_cell h a <> None -> hp_cell h' a = hp_cell h a.
(** [tidy], [clean] and [succeeds], for lives [l] *)
Definition safe_life (k : kind) (l : list act) : Prop := tidy (begin k l) /\ clean (life k l) /\ succeeds (life k l).

(** ** what goes wrong where something does *)
(** an object that did not exist before is left behind, and its address is known to no one *)
Definition leaks {A} (p : prog A) : Prop := exists h r h' a, heap_ok h /\ p h = Ok (r, h') /\ hp_cell h a = None /\ hp_cell h' a <> None.
(** even though no allocation fails *)
Definition always_leaks {A} (p : prog A) : Prop := forall h, heap_ok h -> plenty h -> exists r h' a, p h = Ok (r, h') /\ hp_cell h a = None /\ hp_cell h' a <> None.
Definition breaks {A} (e : err) (p : prog A) : Prop := exists h, heap_ok h /\ p h = Err e.

(** ** the objects of the library, by what they are built from *)
Definition block_kinds : list kind := [plain; renewing].
Definition hash_kinds : list kind := [plain; skein_kind plain].
Definition mac_kinds : list kind :=
  map omac_kind block_kinds ++ map xcbc_kind block_kinds ++ [keccak_kind plain; skein_kind plain; hmac_kind plain None; hmac_kind plain (Some (ret true));
    hmac_kind (skein_kind plain) None; hmac_kind (skein_kind plain) (Some (skein_all plain))].
Definition stream_kinds : list kind := plain :: map mode_kind block_kinds ++ [keccak_kind plain; skein_kind plain].
(** those whose recreate works in place *)
Definition steady_macs : list kind := [keccak_kind plain; skein_kind plain; hmac_kind plain None; hmac_kind plain (Some (ret true)); hmac_kind (skein_kind plain) None].

(** A life of the random generator: created, asked some times, which seeds it anew or not, and destroyed. *)
Section Random.
  Variable mac : kind.
  Variable b1 b2 : nat.
  Fixpoint rn_asks (l : list bool) (s : nat) : prog nat :=
    match l with [] => ret s | reseed :: l => let! s := rn_gen_heap mac b1 b2 reseed s in if s =? 0 then ret 0 else rn_asks l s end.
  Definition rn_life (l : list bool) : prog bool :=
    let! s := rn_create_heap mac b1 b2 in
    if s =? 0 then ret false else
    let! s := rn_asks l s in
    if s =? 0 then ret false else do! rn_destroy_heap s in ret true.
End Random.
