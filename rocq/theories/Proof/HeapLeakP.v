(** Recreation of EAX and EAX2 loses objects when an allocation fails, but touches and frees none that is gone. *)
From Coq Require Import Arith List Bool Lia.
From Verif Require Import Lib.Res Model.Heap Spec.Heap Proof.HeapP Proof.HeapKindsP Proof.HeapLifeP.
Import ListNotations.

(** cells no one knows of *)
Definition junk : hprop := fun _ => True.
Lemma junk_in lucky F h : state lucky F h -> state lucky (junk :: F) h.
Proof. intros [H W]. split; [|exact W]. exists (fun _ => None), (hp_cell h). split; [intros a; left; auto|]. split; [exact I|exact H]. Qed.
Lemma junk_mid lucky l F h : state lucky (l ++ junk :: F) h -> state lucky (junk :: F) h.
Proof.
  destruct l as [|P l]; intros H; [exact H|].
  destruct H as [(c1 & c & S & HP & H) W].
  assert (X : exists d1 d2, splits c d1 d2 /\ sat F d2).
  { destruct (sat_unapp _ _ _ H) as (e1 & e & Se & _ & (e2 & e3 & Se' & _ & HF)). destruct (splits_join _ _ _ _ _ Se Se') as (_ & _ & _ & Y). now exists (join e1 e2), e3. }
  destruct X as (d1 & d2 & Sd & HF). split; [|exact W]. destruct (splits_join _ _ _ _ _ S Sd) as (_ & _ & _ & Y). exists (join c1 d1), d2. split; [exact Y|]. split; [exact I|exact HF].
Qed.

(** as [recreates], but what is lost goes to the junk *)
Definition loses lucky (k : kind) (own : nat -> hprop) : Prop :=
  forall a F h, state lucky (own a :: junk :: F) h -> wp (kd_recreate k a) (fun r => state lucky (opt lucky own r :: junk :: F)) h.

Ltac close_eax lucky oc om s := match goal with HS : state _ ?l _ |- _ => match l with context [pt s [?d0; ?d1; ?c; ?m; ?hd]] => bring (om hd); bring (om m); bring (oc c); bring_pt d1; bring_pt d0; bring_pt s end end;
  match goal with HS : state _ _ _ |- _ => exact (eax_some lucky oc om s _ _ _ _ _ _ _ HS) end.
Ltac close_eax2 lucky oc om s := match goal with HS : state _ ?l _ |- _ => match l with context [pt s [?c; ?m; ?hd]] => bring (om hd); bring (om m); bring (oc c); bring_pt s end end;
  match goal with HS : state _ _ _ |- _ => exact (eax2_some lucky oc om s _ _ _ _ _ HS) end.
Ltac lost := apply null_state; [assumption|];
  match goal with HS : state _ ?l _ |- _ => let rec pre l := lazymatch l with junk :: _ => constr:(@nil hprop) | ?x :: ?r => let p := pre r in constr:(x :: p) end in
    let p := pre l in lazymatch l with context [junk :: ?F] => exact (junk_mid _ p F _ HS) end end.

Section Eax.
  Context (lucky : bool) (b : kind) (oc om : nat -> hprop).
  Context (Cc : contract lucky (mode_kind b) oc) (Cm : contract lucky (omac_kind b) om) (Rm : recreates lucky (omac_kind b) om) (Rc : recreates lucky (mode_kind b) oc).
  Lemma eax_loses : loses lucky (eax_kind b) (own_eax oc om).
  Proof.
    intros s F h HS. cbn [kd_recreate eax_kind]. unfold eax_recreate, eax_re3, eax_re2, eax_re1, eax_re0.
    unfold own_eax in HS at 1. apply state_exs in HS. destruct HS as [[[[[d0 d1] c] m] hd] HS]. cbn [app] in HS. repeat step; try lost. close_eax lucky oc om s.
  Qed.
End Eax.
Section Eax2.
  Context (lucky : bool) (st mac : kind) (oc om : nat -> hprop).
  Context (Cc : contract lucky st oc) (Cm : contract lucky mac om) (Rm : recreates lucky mac om) (Rc : recreates lucky st oc).
  Lemma eax2_loses : loses lucky (eax2_kind st mac false) (own_eax2 oc om).
  Proof.
    intros s F h HS. cbn [kd_recreate eax2_kind]. unfold eax2_recreate, eax2_re3, eax2_re2, eax2_re1, eax2_re0.
    unfold own_eax2 in HS at 1. apply state_exs in HS. destruct HS as [[[c m] hd] HS]. cbn [app] in HS. repeat step; try lost. close_eax2 lucky oc om s.
  Qed.
End Eax2.

Section Life.
  Context (lucky : bool) (k : kind) (own : nat -> hprop) (C : contract lucky k own) (R : loses lucky k own).
  Lemma acts_loses l : forall a F h, state lucky (own a :: junk :: F) h -> wp (acts k l a) (fun r => state lucky (opt lucky own r :: junk :: F)) h.
  Proof.
    induction l as [|x l IH]; intros a F h HS; cbn [acts].
    - step. apply some_state; [|exact HS]. exact (own_nonnull lucky k own a _ _ C HS).
    - destruct x.
      + repeat step. exact (IH a F _ HS).
      + repeat step. exact (IH a F _ HS).
      + step. apply (wp_mono _ _ _ _ (R a F h HS)). clear h HS. intros r h HS. step; [step; now apply null_state|]. exact (IH r F _ HS).
  Qed.
  Lemma life_loses l F h : state lucky (junk :: F) h -> wp (life k l) (fun _ => state lucky (junk :: F)) h.
  Proof.
    intros HS. unfold life, begin. step. step. step.
    step; [step; cbn [Nat.eqb]; step; exact HS|]. apply (wp_mono _ _ _ _ (acts_loses l _ F _ HS)). clear h0 HS. intros r' h0 HS. repeat step; exact HS.
  Qed.
End Life.
Lemma loses_quiet k l own : contract false k own -> loses false k own -> quiet (life k l).
Proof.
  intros C R h W. destruct (life_loses false k own C R l [rest h] h) as (r & h' & E & H).
  - apply junk_in. now apply start_state.
  - exists r, h'. split; [exact E|]. intros a Ha. destruct H as [(c1 & c2 & S & _ & c3 & c4 & S' & H3 & H4) _]. specialize (H3 a). specialize (H4 a). destruct (S a) as [[A Q]|[A Q]], (S' a) as [[A' Q']|[A' Q']]; congruence.
Qed.
Lemma eax_quiet b l : sound b -> quiet (life (eax_kind b) l).
Proof.
  intros H. destruct (mode_sound b H false) as (oc & Cc & Rc), (omac_sound b H false) as (om & Cm & Rm).
  apply (loses_quiet _ l (own_eax oc om)); [now apply eax_ok|now apply eax_loses].
Qed.
Lemma eax2_quiet st mac l : sound st -> sound mac -> quiet (life (eax2_kind st mac false) l).
Proof.
  intros H1 H2. destruct (H1 false) as (oc & Cc & Rc), (H2 false) as (om & Cm & Rm).
  apply (loses_quiet _ l (own_eax2 oc om)); [now apply eax2_ok|now apply eax2_loses].
Qed.
