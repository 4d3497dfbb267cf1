(** A separation logic for Model/Heap.v. *)
From Coq Require Import Arith List Bool Lia.
From Verif Require Import Lib.Res Model.Heap Spec.Heap.
Import ListNotations.

Definition cells := nat -> option (list nat).
Definition hprop := cells -> Prop.
Definition splits (c c1 c2 : cells) : Prop := forall a, (c1 a = None /\ c a = c2 a) \/ (c2 a = None /\ c a = c1 a).
Definition empty (c : cells) : Prop := forall a, c a = None.
Fixpoint sat (l : list hprop) (c : cells) : Prop :=
  match l with [] => empty c | P :: l => exists c1 c2, splits c c1 c2 /\ P c1 /\ sat l c2 end.
Definition join (c1 c2 : cells) : cells := fun a => match c1 a with Some v => Some v | None => c2 a end.

Lemma sat_ext l c c' : (forall a, c' a = c a) -> sat l c -> sat l c'.
Proof.
  intros E. destruct l as [|P l]; cbn [sat].
  - intros H a. now rewrite E.
  - intros (c1 & c2 & S & H1 & H2). exists c1, c2. split; [|auto]. intros a. destruct (S a) as [[? ?]|[? ?]]; [left|right]; split; congruence.
Qed.
(** [c] is [c1], [c2] and [c3] *)
Lemma splits_join c c1 c' c2 c3 : splits c c1 c' -> splits c' c2 c3 -> splits c c2 (join c1 c3) /\ splits (join c1 c3) c1 c3 /\ splits (join c1 c2) c1 c2 /\ splits c (join c1 c2) c3.
Proof.
  intros S S'. unfold splits, join. split; [|split; [|split]]; intros a; destruct (S a) as [[A B]|[A B]], (S' a) as [[A' B']|[A' B']]; destruct (c1 a) eqn:E1; destruct (c2 a) eqn:E2; destruct (c3 a) eqn:E3;
    try (left; split; congruence); try (right; split; congruence).
Qed.
Lemma splits_sym c c1 c2 : splits c c1 c2 -> splits c c2 c1.
Proof. intros S a. destruct (S a); [right|left]; tauto. Qed.
Lemma sat_swap P Q l c : sat (P :: Q :: l) c -> sat (Q :: P :: l) c.
Proof.
  cbn [sat]. intros (c1 & c' & S & H1 & c2 & c3 & S' & H2 & H3). destruct (splits_join _ _ _ _ _ S S') as (A & B & _).
  exists c2, (join c1 c3). split; [exact A|]. split; [exact H2|]. exists c1, c3. auto.
Qed.
Lemma sat_cons P l l' c : (forall c, sat l c -> sat l' c) -> sat (P :: l) c -> sat (P :: l') c.
Proof. intros H. cbn [sat]. intros (c1 & c2 & S & H1 & H2). exists c1, c2. auto. Qed.
Lemma sat_mid P l l' c : sat (l ++ P :: l') c -> sat (P :: l ++ l') c.
Proof.
  revert c; induction l as [|Q l IH]; intros c H; [exact H|]. cbn [app] in *. apply sat_swap. now apply (sat_cons Q (l ++ P :: l')).
Qed.
(** a conjunction inside one assertion *)
Lemma sat_app l F c c1 c2 : splits c c1 c2 -> sat l c1 -> sat F c2 -> sat (l ++ F) c.
Proof.
  revert c c1; induction l as [|P l IH]; intros c c1 S H1 H2; cbn [app sat] in *.
  - apply (sat_ext F c2); [|exact H2]. intros a. destruct (S a) as [[A B]|[A B]]; [exact B|]. rewrite B, A. apply H1.
  - destruct H1 as (a & b & S1 & HP & Hl). destruct (splits_join c c2 c1 a b (splits_sym _ _ _ S) S1) as (X & Y & _).
    exists a, (join c2 b). split; [exact X|]. split; [exact HP|]. apply (IH _ b); [now apply splits_sym|exact Hl|exact H2].
Qed.
Lemma sat_unapp l F c : sat (l ++ F) c -> exists c1 c2, splits c c1 c2 /\ sat l c1 /\ sat F c2.
Proof.
  revert c; induction l as [|P l IH]; intros c H; cbn [app sat] in *.
  - exists (fun _ => None), c. split; [intros a; left; auto|]. split; [intros a; reflexivity|exact H].
  - destruct H as (a & b & S & HP & H). destruct (IH b H) as (c1 & c2 & S' & H1 & H2). destruct (splits_join _ _ _ _ _ S S') as (_ & _ & X & Y).
    exists (join a c1), c2. split; [exact Y|]. split; [|exact H2]. exists a, c1. auto.
Qed.

Section Logic.
  Variable lucky : bool.
  Definition state (l : list hprop) (h : heap) : Prop := sat l (hp_cell h) /\ heap_ok h /\ (lucky = true -> plenty h).
  Definition wp {A} (p : prog A) (Q : A -> heap -> Prop) (h : heap) : Prop := exists r h', p h = Ok (r, h') /\ Q r h'.
  Definition triple {A} (P : list hprop) (p : prog A) (R : A -> list hprop) : Prop := forall F h, state (P ++ F) h -> wp p (fun r => state (R r ++ F)) h.
  Definition pt (a : nat) (v : list nat) : hprop := fun c => a <> 0 /\ forall x, c x = if x =? a then Some v else None.
  Definition opt (own : nat -> hprop) (a : nat) : hprop := fun c => if a =? 0 then lucky = false /\ empty c else own a c.
  Definition exs {T} (L : T -> list hprop) : hprop := fun c => exists t, sat (L t) c.

  Lemma wp_ret {A} (a : A) (Q : A -> heap -> Prop) h : Q a h -> wp (ret a) Q h.
  Proof. intros H. now exists a, h. Qed.
  Lemma wp_seq {A B} (p : prog A) (q : A -> prog B) (Q : B -> heap -> Prop) h : wp p (fun r => wp (q r) Q) h -> wp (seq_ p q) Q h.
  Proof. intros (r & h' & E & r' & h'' & E' & H). exists r', h''. unfold seq_. rewrite E. auto. Qed.
  Lemma wp_mono {A} (p : prog A) (Q Q' : A -> heap -> Prop) h : wp p Q h -> (forall r h', Q r h' -> Q' r h') -> wp p Q' h.
  Proof. intros (r & h' & E & H) M. exists r, h'. auto. Qed.
  Lemma wp_call {A} P (p : prog A) R F (Q : A -> heap -> Prop) h : triple P p R -> state (P ++ F) h -> (forall r h', state (R r ++ F) h' -> Q r h') -> wp p Q h.
  Proof. intros T H M. exact (wp_mono _ _ _ _ (T F h H) M). Qed.
  (** bring number [i] to the front *)
  Definition pick (i : nat) (l : list hprop) : list hprop := match nth_error l i with Some x => x :: firstn i l ++ skipn (S i) l | None => l end.
  Lemma state_pick i l h : state l h -> state (pick i l) h.
  Proof.
    unfold pick. destruct (nth_error l i) as [x|] eqn:E; [|auto]. intros [S W]. split; [|exact W]. apply sat_mid.
    rewrite <- (firstn_skipn i l) in S. replace (skipn i l) with (x :: skipn (Datatypes.S i) l) in S; [exact S|].
    clear S. revert l E; induction i as [|i IH]; intros [|y l] E; try discriminate; cbn [nth_error skipn] in *; [congruence|]. rewrite (IH l E). now destruct l.
  Qed.
  Lemma state_exs {T} (L : T -> list hprop) F h : state (exs L :: F) h -> exists t, state (L t ++ F) h.
  Proof. intros [(c1 & c2 & S & (t & H1) & H2) W]. exists t. split; [|exact W]. now apply (sat_app _ _ _ c1 c2). Qed.
  Lemma exs_state {T} (L : T -> list hprop) F h t : state (L t ++ F) h -> state (exs L :: F) h.
  Proof. intros [H W]. split; [|exact W]. destruct (sat_unapp _ _ _ H) as (c1 & c2 & S & H1 & H2). exists c1, c2. split; [exact S|]. split; [now exists t|exact H2]. Qed.
  Lemma state_null own F h : state (opt own 0 :: F) h -> lucky = false /\ state F h.
  Proof. intros [(c1 & c2 & S & [E H1] & H2) W]. split; [exact E|]. split; [|exact W]. exact (sat_app [] F _ c1 c2 S H1 H2). Qed.
  Lemma null_state own F h : lucky = false -> state F h -> state (opt own 0 :: F) h.
  Proof. intros E [H W]. split; [|exact W]. destruct (sat_unapp [] F _ H) as (c1 & c2 & S & H1 & H2). exists c1, c2. split; [exact S|]. split; [|exact H2]. split; [exact E|exact H1]. Qed.
  Lemma state_some own a F h : a <> 0 -> state (opt own a :: F) h -> state (own a :: F) h.
  Proof. intros N [(c1 & c2 & S & H1 & H2) W]. split; [|exact W]. exists c1, c2. split; [exact S|]. split; [|exact H2]. unfold opt in H1. destruct (Nat.eqb_spec a 0); [contradiction|exact H1]. Qed.
  Lemma some_state own a F h : a <> 0 -> state (own a :: F) h -> state (opt own a :: F) h.
  Proof. intros N [(c1 & c2 & S & H1 & H2) W]. split; [|exact W]. exists c1, c2. split; [exact S|]. split; [|exact H2]. unfold opt. destruct (Nat.eqb_spec a 0); [contradiction|exact H1]. Qed.

  Lemma pt_cell a v F h : state (pt a v :: F) h -> hp_cell h a = Some v /\ a <> 0.
  Proof.
    intros [(c1 & c2 & S & [N H1] & H2) W]. split; [|exact N]. specialize (H1 a). rewrite Nat.eqb_refl in H1. destruct (S a) as [[A B]|[A B]]; congruence.
  Qed.
  Lemma wp_look a v F (Q : list nat -> heap -> Prop) h : state (pt a v :: F) h -> Q v h -> wp (look a) Q h.
  Proof. intros H HQ. destruct (pt_cell _ _ _ _ H) as [E N]. exists v, h. unfold look. destruct (Nat.eqb_spec a 0); [contradiction|]. rewrite E. auto. Qed.
  Lemma state_set a v v' F h : state (pt a v :: F) h -> state (pt a v' :: F) (with_cell h a (Some v')).
  Proof.
    intros H. destruct (pt_cell _ _ _ _ H) as [E _]. destruct H as [(c1 & c2 & S & [N H1] & H2) ((W1 & W2 & W3) & L)]. split; [|split; [split; [exact W1|split]|exact L]].
    - exists (fun x => if x =? a then Some v' else None), c2. split; [|split; [split; [exact N|reflexivity]|exact H2]].
      intros x. cbn [hp_cell with_cell]. unfold set_cell. specialize (H1 x). destruct (S x) as [[A B]|[A B]]; destruct (x =? a); try congruence; [left|right|left]; split; congruence.
    - cbn [hp_cell with_cell]. unfold set_cell. destruct (Nat.eqb_spec 0 a); [congruence|exact W2].
    - cbn [hp_cell hp_next with_cell]. intros x Hx. unfold set_cell. destruct (Nat.eqb_spec x a) as [->|]; [|now apply W3]. rewrite (W3 a Hx) in E. discriminate.
  Qed.
  Lemma wp_get a i p v F (Q : nat -> heap -> Prop) h : state (pt a v :: F) h -> nth_error v i = Some p -> Q p h -> wp (hget a i) Q h.
  Proof. intros H En HQ. unfold hget. apply wp_seq. eapply wp_look; [exact H|]. exists p, h. now rewrite En. Qed.
  Lemma wp_set a i p v F (Q : unit -> heap -> Prop) h : state (pt a v :: F) h -> i < length v -> (forall h', state (pt a (upd v i p) :: F) h' -> Q tt h') -> wp (hset a i p) Q h.
  Proof. intros H Hi HQ. unfold hset. apply wp_seq. eapply wp_look; [exact H|]. exists tt, (with_cell h a (Some (upd v i p))). rewrite (proj2 (Nat.ltb_lt _ _) Hi). split; [reflexivity|]. apply HQ. eapply state_set; exact H. Qed.
  Lemma wp_free a v F (Q : unit -> heap -> Prop) h : state (pt a v :: F) h -> (forall h', state F h' -> Q tt h') -> wp (hfree a) Q h.
  Proof.
    intros H HQ. destruct (pt_cell _ _ _ _ H) as [E N]. exists tt, (with_cell h a None). unfold hfree. destruct (Nat.eqb_spec a 0); [contradiction|]. rewrite E. split; [reflexivity|]. apply HQ.
    destruct H as [(c1 & c2 & S & [_ H1] & H2) ((W1 & W2 & W3) & L)]. split; [|split; [split; [exact W1|split]|exact L]].
    - apply (sat_ext F c2); [|exact H2]. intros x. cbn [hp_cell with_cell]. unfold set_cell. specialize (H1 x). destruct (x =? a); destruct (S x) as [[A B]|[A B]]; congruence.
    - cbn [hp_cell with_cell]. unfold set_cell. destruct (Nat.eqb_spec 0 a); [reflexivity|exact W2].
    - cbn [hp_cell hp_next with_cell]. intros x Hx. unfold set_cell. destruct (x =? a); [reflexivity|now apply W3].
  Qed.
  Lemma wp_alloc n F (Q : nat -> heap -> Prop) h : state F h -> (forall a h', state (opt (fun a => pt a (repeat 0 n)) a :: F) h' -> Q a h') -> wp (halloc n) Q h.
  Proof.
    intros [H ((W1 & W2 & W3) & L)] HQ. unfold wp, halloc. destruct (hp_fails h 0) eqn:Ef.
    - eexists _, _. split; [reflexivity|]. apply HQ. apply null_state.
      + destruct lucky; [|reflexivity]. rewrite (L eq_refl 0) in Ef. discriminate.
      + split; [exact H|]. split; [split; [exact W1|]; split; [exact W2|exact W3]|]. intros El k. exact (L El (S k)).
    - eexists _, _. split; [reflexivity|]. apply HQ. apply some_state; [lia|]. split; [|split; [split; [|split]|]]; cbn [hp_cell hp_next].
      + exists (fun x => if x =? hp_next h then Some (repeat 0 n) else None), (hp_cell h). split; [|split; [split; [lia|reflexivity]|exact H]].
        intros x. unfold set_cell. destruct (Nat.eqb_spec x (hp_next h)) as [->|]; [right; split; [apply W3; lia|reflexivity]|left; auto].
      + lia.
      + unfold set_cell. destruct (Nat.eqb_spec 0 (hp_next h)); [lia|exact W2].
      + intros x Hx. unfold set_cell. destruct (Nat.eqb_spec x (hp_next h)); [lia|]. apply W3. lia.
      + intros El k. exact (L El (S k)).
  Qed.
  Lemma wp_renews F (Q : bool -> heap -> Prop) h : state F h -> (forall b h', state F h' -> Q b h') -> wp renews Q h.
  Proof. intros [H W] HQ. unfold wp, renews. eexists _, _. split; [reflexivity|]. apply HQ. split; [exact H|exact W]. Qed.

  (** a computation that leaves nothing allocated, and fails only for want of memory *)
  Definition unlucky : hprop := fun c => lucky = false /\ empty c.
  Definition outcome (r : bool) : list hprop := if r then [] else [unlucky].
  Definition balanced (p : prog bool) : Prop := triple [] p outcome.
  Lemma state_unlucky F h : state (unlucky :: F) h -> lucky = false /\ state F h.
  Proof. exact (state_null (fun _ _ => False) F h). Qed.
  Lemma unlucky_state F h : lucky = false -> state F h -> state (unlucky :: F) h.
  Proof. exact (null_state (fun _ _ => False) F h). Qed.

  (** The contract of a kind of objects: [own a] are the cells of object [a].  Recreation apart. *)
  Record contract (k : kind) (own : nat -> hprop) : Prop := {
    ct_nonnull : forall a c, own a c -> a <> 0;
    ct_create : triple [] (kd_create k) (fun r => [opt own r]);
    ct_use : forall a, triple [own a] (kd_use k a) (fun _ => [own a]);
    ct_tag : forall a, triple [own a] (kd_tag k a) (fun _ => [own a]);
    ct_destroy : forall a, triple [own a] (kd_destroy k a) (fun _ => []) }.
  Definition recreates (k : kind) (own : nat -> hprop) : Prop := forall a, triple [own a] (kd_recreate k a) (fun r => [opt own r]).
  (** in place: it never fails *)
  Definition in_place (k : kind) (own : nat -> hprop) : Prop := forall a F h, state (own a :: F) h -> wp (kd_recreate k a) (fun r h' => r = a /\ state (own a :: F) h') h.
  Lemma own_nonnull k own a F h : contract k own -> state (own a :: F) h -> a <> 0.
  Proof. intros C [(c1 & c2 & S & H1 & H2) W]. exact (ct_nonnull _ _ C _ _ H1). Qed.
  Lemma in_place_recreates k own : contract k own -> in_place k own -> recreates k own.
  Proof. intros C H a F h S. apply (wp_mono _ _ _ _ (H a F h S)). intros r h' [-> S']. apply some_state; [|exact S']. exact (own_nonnull k own _ _ _ C S'). Qed.
End Logic.
