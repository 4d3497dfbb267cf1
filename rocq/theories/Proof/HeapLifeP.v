(** From contracts to whole lives of objects. *)
From Coq Require Import Arith List Bool Lia.
From Verif Require Import Lib.Res Model.Heap Spec.Heap Proof.HeapP Proof.HeapKindsP.
Import ListNotations.

Section Life.
  Context (lucky : bool) (k : kind) (own : nat -> hprop) (C : contract lucky k own).
  Lemma acts_ok l : (In Again l -> recreates lucky k own) -> forall a, triple lucky [own a] (acts k l a) (fun r => [opt lucky own r]).
  Proof.
    induction l as [|x l IH]; intros R a; start; cbn [acts].
    - step. apply some_state; [|exact HS]. exact (own_nonnull lucky k own a _ _ C HS).
    - assert (IH' := IH (fun H => R (or_intror H))). destruct x.
      + repeat step. exact (IH' a F _ HS).
      + repeat step. exact (IH' a F _ HS).
      + assert (R' := R (or_introl eq_refl)). repeat step; [apply null_state; assumption|]. exact (IH' _ F _ HS).
  Qed.
  Lemma begin_ok l : (In Again l -> recreates lucky k own) -> triple lucky [] (begin k l) (fun r => [opt lucky own r]).
  Proof. intros R. start. unfold begin. repeat step; [apply null_state; assumption|]. exact (acts_ok l R _ F _ HS). Qed.
  Lemma life_ok l : (In Again l -> recreates lucky k own) -> balanced lucky (life k l).
  Proof.
    intros R. start. unfold life. step. eapply wp_call with (P := []); [exact (begin_ok l R)|exact HS|]. renew1 HS. repeat step; [now apply unlucky_state|exact HS].
  Qed.
End Life.

(** the cells of everyone else *)
Definition rest (h : heap) : hprop := fun c => forall a, c a = hp_cell h a.
Lemma start_state lucky h : heap_ok h -> (lucky = true -> plenty h) -> state lucky [rest h] h.
Proof. intros W L. split; [|auto]. exists (hp_cell h), (fun _ => None). split; [intros a; right; auto|]. split; [intros a; reflexivity|intros a; reflexivity]. Qed.
Lemma end_state lucky h h' : state lucky [rest h] h' -> same_objects h h'.
Proof. intros [(c1 & c2 & S & H1 & H2) _] a. specialize (H1 a). specialize (H2 a). destruct (S a) as [[A B]|[A B]]; congruence. Qed.

Lemma balanced_clean p : balanced false p -> clean p.
Proof.
  intros B h W. destruct (B [rest h] h (start_state false h W ltac:(discriminate))) as (r & h' & E & H). exists r, h'. split; [exact E|].
  destruct r; cbn [outcome app] in H; [exact (end_state _ _ _ H)|]. apply state_unlucky in H. exact (end_state _ _ _ (proj2 H)).
Qed.
Lemma balanced_succeeds p : balanced true p -> succeeds p.
Proof.
  intros B h W L. destruct (B [rest h] h (start_state true h W (fun _ => L))) as (r & h' & E & H). exists h'.
  destruct r; cbn [outcome app] in H; [split; [exact E|exact (end_state _ _ _ H)]|]. apply state_unlucky in H. destruct H as [X _]. discriminate.
Qed.
Lemma made_tidy own p : triple false [] p (fun r => [opt false own r]) -> tidy p.
Proof.
  intros B h W. destruct (B [rest h] h (start_state false h W ltac:(discriminate))) as (r & h' & E & H). exists r, h'. split; [exact E|]. cbn [app] in H. split.
  - intros a Ha. destruct H as [(c1 & c2 & S & H1 & c3 & c4 & S' & H3 & H4) _]. specialize (H3 a). specialize (H4 a). destruct (S a) as [[A Q]|[A Q]], (S' a) as [[A' Q']|[A' Q']]; congruence.
  - intros ->. apply state_null in H. exact (end_state _ _ _ (proj2 H)).
Qed.

(** kinds that keep their contracts whatever fails *)
Definition sound (k : kind) : Prop := forall lucky, exists own, contract lucky k own /\ recreates lucky k own.
Definition sound_in_place (k : kind) : Prop := forall lucky, exists own, contract lucky k own /\ in_place lucky k own.
Definition half_sound (k : kind) : Prop := forall lucky, exists own, contract lucky k own /\ (lucky = true -> recreates lucky k own).
Lemma sound_half k : sound k -> half_sound k.
Proof. intros H lucky. destruct (H lucky) as (own & C & R). exists own. auto. Qed.
Lemma in_place_sound k : sound_in_place k -> sound k.
Proof. intros H lucky. destruct (H lucky) as (own & C & R). exists own. split; [exact C|]. now apply in_place_recreates. Qed.
Lemma half_safe k l : half_sound k -> ~ In Again l -> safe_life k l.
Proof.
  intros H N. destruct (H false) as (own & C & _), (H true) as (own' & C' & _). split; [|split].
  - apply (made_tidy own). now apply begin_ok.
  - apply balanced_clean. now apply (life_ok false k own).
  - apply balanced_succeeds. now apply (life_ok true k own').
Qed.
Lemma half_succeeds k l : half_sound k -> succeeds (life k l).
Proof. intros H. destruct (H true) as (own & C & R). apply balanced_succeeds. apply (life_ok true k own C). auto. Qed.
Lemma sound_safe k l : sound k -> safe_life k l.
Proof.
  intros H. destruct (H false) as (own & C & R), (H true) as (own' & C' & R'). split; [|split].
  - apply (made_tidy own). now apply begin_ok.
  - apply balanced_clean. now apply (life_ok false k own).
  - apply balanced_succeeds. now apply (life_ok true k own').
Qed.

Lemma plain_sip : sound_in_place plain.
Proof. intros lucky. exists own_plain. split; [apply plain_ok|apply plain_in_place]. Qed.
Lemma renewing_sound : sound renewing.
Proof. intros lucky. exists own_plain. split; [apply renewing_ok|apply renewing_recreates]. Qed.
Lemma mode_sound b : sound b -> sound (mode_kind b).
Proof. intros H lucky. destruct (H lucky) as (own & C & R). exists (own_one own). split; [now apply mode_ok|now apply mode_recreates]. Qed.
Lemma omac_sound b : sound b -> sound (omac_kind b).
Proof. intros H lucky. destruct (H lucky) as (own & C & R). exists (own_one own). split; [now apply omac_ok|now apply omac_recreates]. Qed.
Lemma xcbc_sound b : sound b -> sound (xcbc_kind b).
Proof. intros H lucky. destruct (H lucky) as (own & C & R). exists (own_one own). split; [now apply xcbc_ok|now apply xcbc_recreates]. Qed.
Lemma skein_sip b : sound_in_place b -> sound_in_place (skein_kind b).
Proof. intros H lucky. destruct (H lucky) as (own & C & R). exists (own_one own). split; [now apply skein_ok|now apply skein_in_place]. Qed.
Lemma keccak_sip b : sound_in_place b -> sound_in_place (keccak_kind b).
Proof. intros H lucky. destruct (H lucky) as (own & C & R). exists (own_one own). split; [now apply keccak_ok|now apply keccak_in_place]. Qed.
Lemma hmac_sip b : sound_in_place b -> sound_in_place (hmac_kind b None).
Proof. intros H lucky. destruct (H lucky) as (own & C & R). exists (own_one own). split; [now apply hmac_ok|now apply hmac_in_place]. Qed.
Lemma hmac_sound b p : sound_in_place b -> (forall lucky, balanced lucky p) -> sound (hmac_kind b (Some p)).
Proof. intros H B lucky. destruct (H lucky) as (own & C & R). exists (own_one own). split; [apply hmac_ok; auto|]. apply hmac_recreates; auto. now apply in_place_recreates. Qed.
Lemma skein_all_balanced b : sound_in_place b -> forall lucky, balanced lucky (skein_all b).
Proof. intros H lucky. destruct (H lucky) as (own & C & R). exact (skein_all_ok lucky b own C R). Qed.
Lemma ret_balanced lucky : balanced lucky (ret true).
Proof. start. step. exact HS. Qed.
(** a hash of a long key that needs no memory *)
Lemma hmac_ret_sip b : sound_in_place b -> sound_in_place (hmac_kind b (Some (ret true))).
Proof. exact (hmac_sip b). Qed.

Lemma block_sound b : In b block_kinds -> sound b.
Proof. intros [<-|[<-|[]]]; [apply in_place_sound, plain_sip|exact renewing_sound]. Qed.
Lemma hash_sip k : In k hash_kinds -> sound_in_place k.
Proof. intros [<-|[<-|[]]]; [exact plain_sip|exact (skein_sip _ plain_sip)]. Qed.
Lemma steady_sip k : In k steady_macs -> sound_in_place k.
Proof.
  assert (P := plain_sip). assert (S := skein_sip _ P).
  intros [<-|[<-|[<-|[<-|[<-|[]]]]]]; [exact (keccak_sip _ P)|exact S|exact (hmac_sip _ P)|exact (hmac_ret_sip _ P)|exact (hmac_sip _ S)].
Qed.
Lemma mac_sound k : In k mac_kinds -> sound k.
Proof.
  unfold mac_kinds. rewrite !in_app_iff, !in_map_iff. intros [(b & <- & H)|[(b & <- & H)|H]]; [apply omac_sound, block_sound, H|apply xcbc_sound, block_sound, H|].
  assert (St := fun H => in_place_sound k (steady_sip k H)). cbn [steady_macs In] in *.
  destruct H as [<-|[<-|[<-|[<-|[<-|[<-|[]]]]]]]; try (apply St; tauto). apply hmac_sound; [exact (skein_sip _ plain_sip)|]. apply skein_all_balanced, plain_sip.
Qed.
Lemma stream_sound k : In k stream_kinds -> sound k.
Proof.
  unfold stream_kinds. cbn [In]. rewrite in_app_iff, in_map_iff. intros [<-|[(b & <- & H)|[<-|[<-|[]]]]].
  - exact (in_place_sound _ plain_sip).
  - apply mode_sound, block_sound, H.
  - exact (in_place_sound _ (keccak_sip _ plain_sip)).
  - exact (in_place_sound _ (skein_sip _ plain_sip)).
Qed.
Lemma eax_half b : sound b -> half_sound (eax_kind b).
Proof.
  intros H lucky. destruct (mode_sound b H lucky) as (oc & Cc & Rc), (omac_sound b H lucky) as (om & Cm & Rm). exists (own_eax oc om). split; [now apply eax_ok|]. intros L. now apply eax_recreates.
Qed.
Lemma eax2_half st mac : sound st -> sound mac -> half_sound (eax2_kind st mac false).
Proof. intros H1 H2 lucky. destruct (H1 lucky) as (oc & Cc & Rc), (H2 lucky) as (om & Cm & Rm). exists (own_eax2 oc om). split; [now apply eax2_ok|]. intros L. apply eax2_recreates; auto. Qed.
Lemma eax2_sound st mac : sound st -> sound mac -> sound (eax2_kind st mac true).
Proof. intros H1 H2 lucky. destruct (H1 lucky) as (oc & Cc & Rc), (H2 lucky) as (om & Cm & Rm). exists (own_eax2 oc om). split; [now apply eax2_ok|]. apply eax2_recreates; auto. Qed.

Lemma balanced_both p : (forall lucky, balanced lucky p) -> clean p /\ succeeds p.
Proof. intros B. split; [apply balanced_clean, B|apply balanced_succeeds, B]. Qed.
Lemma mac_all_both k : sound k -> clean (mac_all k) /\ succeeds (mac_all k).
Proof. intros H. apply balanced_both. intros lucky. destruct (H lucky) as (own & C & _). exact (mac_all_ok lucky k own C). Qed.
Lemma pbkdf2_one k n : sound k -> clean (pbkdf2_heap k 1 n) /\ succeeds (pbkdf2_heap k 1 n).
Proof. intros H. apply balanced_both. intros lucky. destruct (H lucky) as (own & C & R). apply (pbkdf2_ok lucky k own C); [exact R|left; lia]. Qed.
Lemma pbkdf2_steady k iter n : sound_in_place k -> clean (pbkdf2_heap k iter n).
Proof. intros H. apply balanced_clean. destruct (H false) as (own & C & R). apply (pbkdf2_ok false k own C); [now apply in_place_recreates|right; left; exact R]. Qed.
Lemma pbkdf2_plenty k iter n : sound k -> succeeds (pbkdf2_heap k iter n).
Proof. intros H. apply balanced_succeeds. destruct (H true) as (own & C & R). apply (pbkdf2_ok true k own C); [exact R|right; right; auto]. Qed.
Lemma scrypt_both k n m : sound k -> clean (scrypt_heap k n m) /\ succeeds (scrypt_heap k n m).
Proof. intros H. apply balanced_both. intros lucky. destruct (H lucky) as (own & C & R). exact (scrypt_ok lucky k own C n m R). Qed.

(** ** random.c *)
Definition own_rn (s : nat) : hprop := exs (fun '(p, d) => [pt s [p; d]; pt p []; pt d []]).
Definition lost : hprop := exs (fun d => [pt d []]).
Lemma rn_some s p d F h : state true (pt s [p; d] :: pt p [] :: pt d [] :: F) h -> state true (opt true own_rn s :: F) h.
Proof.
  intros H. apply some_state; [exact (proj2 (pt_cell _ _ _ _ _ H))|]. exact (exs_state true (fun '(p, d) => [pt s [p; d]; pt p []; pt d []]) F h (p, d) H).
Qed.
Lemma lose d F h : state true (pt d [] :: F) h -> state true (lost :: F) h.
Proof. intros H. exact (exs_state true (fun d => [pt d []]) F h d H). Qed.
Ltac open_rn := match goal with HS : state _ (_ :: _) _ |- _ => unfold own_rn in HS at 1; apply state_exs in HS; destruct HS as [[p d] HS]; cbn [app] in HS end.
Section Rn.
  Context (mac : kind) (b1 b2 : nat) (S : sound mac).
  Lemma rn_scrypt : triple true [] (scrypt_heap mac b1 b2) (fun r => if r then [] else [unlucky true]).
  Proof. destruct (S true) as (own & C & R). exact (scrypt_ok true mac own C b1 b2 R). Qed.
  (** seed overwrites the pointer to the old descriptor *)
  Lemma rn_seed_ok s p d F h : state true (pt s [p; d] :: F) h -> wp (rn_seed_heap mac b1 b2 s) (fun r h' => r = true /\ exists d', state true (pt s [p; d'] :: pt d' [] :: F) h') h.
  Proof.
    intros HS. unfold rn_seed_heap. repeat step; [discriminate|]. bring_pt s. eapply wp_call with (P := []); [exact rn_scrypt|exact HS|]. renew1 HS.
    destruct r0; cbn [app] in HS; [|apply state_unlucky in HS; destruct HS; discriminate].
    eapply wp_call with (P := []); [exact rn_scrypt|exact HS|]. renew1 HS. destruct r0; cbn [app] in HS; [|apply state_unlucky in HS; destruct HS; discriminate].
    split; [reflexivity|]. exists r. exact HS.
  Qed.
  Lemma rn_create_ok : triple true [] (rn_create_heap mac b1 b2) (fun r => [opt true own_rn r]).
  Proof.
    start. unfold rn_create_heap. repeat step; [discriminate|]. bring_pt r. cbn [repeat] in HS. eapply wp_mono; [exact (rn_seed_ok _ _ _ _ _ HS)|]. clear HS. intros ok h1 [-> [d HS]].
    cbn [kd_create plain]. repeat step; [discriminate|]. bring_pt d. bring_pt r0. bring_pt r. exact (rn_some _ _ _ _ _ HS).
  Qed.
  Definition junk (reseed : bool) : list hprop := if reseed then [lost] else [].
  Lemma rn_gen_ok reseed s : triple true [own_rn s] (rn_gen_heap mac b1 b2 reseed s) (fun r => opt true own_rn r :: junk reseed).
  Proof.
    start. unfold rn_gen_heap. open_rn. cbn [kd_use kd_recreate plain]. unfold plain_use. destruct reseed.
    - repeat step. bring_pt s. eapply wp_mono; [exact (rn_seed_ok _ _ _ _ _ HS)|]. clear HS. intros ok h1 [-> [d' HS]]. repeat step. bring_pt p.
      assert (N := proj2 (pt_cell _ _ _ _ _ HS)). apply Nat.eqb_neq in N. rewrite N. repeat step. cbn [junk app].
      bring_pt d. apply lose in HS. bring_pt d'. bring_pt p. bring_pt s. exact (rn_some _ _ _ _ _ HS).
    - repeat step. bring_pt d. bring_pt p. bring_pt s. exact (rn_some _ _ _ _ _ HS).
  Qed.
  Fixpoint junks (l : list bool) : list hprop := match l with [] => [] | x :: l => junks l ++ junk x end.
  Lemma rn_asks_ok l s : triple true [own_rn s] (rn_asks mac b1 b2 l s) (fun r => opt true own_rn r :: junks l).
  Proof.
    revert s; induction l as [|x l IH]; intros s; start; cbn [rn_asks].
    - step. cbn [junks app]. open_rn. exact (rn_some _ _ _ _ _ HS).
    - step. eapply wp_call; [exact (rn_gen_ok x s)|cbn [app]; exact HS|]. renew1 HS. step; [discriminate|]. eapply wp_mono; [exact (IH _ _ _ HS)|]. intros r' h' H. cbn [junks app] in *. rewrite <- app_assoc. exact H.
  Qed.
  Lemma rn_life_ok l : triple true [] (rn_life mac b1 b2 l) (fun r => if r then junks l else [unlucky true]).
  Proof.
    start. unfold rn_life. step. eapply wp_call with (P := []); [exact rn_create_ok|exact HS|]. renew1 HS. step; [discriminate|].
    step. eapply wp_call; [exact (rn_asks_ok l r)|cbn [app]; exact HS|]. renew1 HS. step; [discriminate|].
    unfold rn_destroy_heap. cbn [kd_destroy plain]. unfold plain_destroy. open_rn. repeat step. exact HS.
  Qed.
  Lemma junks_none l : ~ In true l -> junks l = [].
  Proof. induction l as [|[|] l IH]; intros H; [reflexivity|exfalso; apply H; now left|]. cbn [junks junk]. rewrite IH; [reflexivity|]. intros X. apply H. now right. Qed.
  Lemma junks_some l : In true l -> exists l1 l2, junks l = l1 ++ lost :: l2.
  Proof.
    induction l as [|x l IH]; intros H; [destruct H|]. cbn [junks]. destruct x.
    - exists (junks l), []. reflexivity.
    - destruct H as [H|H]; [discriminate|]. destruct (IH H) as (l1 & l2 & E). exists l1, l2. cbn [junk]. now rewrite app_nil_r.
  Qed.
  Lemma rn_succeeds l : ~ In true l -> succeeds (rn_life mac b1 b2 l).
  Proof.
    intros N h W L. destruct (rn_life_ok l [rest h] h (start_state true h W (fun _ => L))) as (r & h' & E & H). exists h'. rewrite (junks_none l N) in H.
    destruct r; cbn [app] in H; [split; [exact E|exact (end_state _ _ _ H)]|]. apply state_unlucky in H. destruct H as [X _]. discriminate.
  Qed.
  Lemma sat_rest h l c : sat (l ++ [rest h]) c -> exists c1, splits c c1 (hp_cell h) /\ sat l c1.
  Proof.
    intros H. destruct (sat_unapp _ _ _ H) as (c1 & c2 & Sp & H1 & c3 & c4 & Sp' & H3 & H4). exists c1. split; [|exact H1].
    intros a. specialize (H3 a). specialize (H4 a). destruct (Sp a) as [[A B]|[A B]], (Sp' a) as [[A' B']|[A' B']]; try (left; split; congruence); right; split; congruence.
  Qed.
  Lemma rn_always_leaks l : In true l -> always_leaks (rn_life mac b1 b2 l).
  Proof.
    intros N h W L. destruct (rn_life_ok l [rest h] h (start_state true h W (fun _ => L))) as (r & h' & E & H).
    destruct r; [|apply state_unlucky in H; destruct H; discriminate]. destruct (junks_some l N) as (l1 & l2 & Ej). rewrite Ej in H.
    destruct H as [H _]. destruct (sat_rest _ _ _ H) as (c1 & Sp & H1). apply sat_mid in H1. destruct H1 as (c2 & c3 & Sp' & (d & c4 & c5 & Sp'' & [Nd Hd] & He) & _).
    specialize (Hd d). rewrite Nat.eqb_refl in Hd. specialize (Sp d). specialize (Sp' d). specialize (Sp'' d). exists true, h', d. split; [exact E|]. split; destruct Sp as [[? ?]|[? ?]], Sp' as [[? ?]|[? ?]], Sp'' as [[? ?]|[? ?]]; congruence.
  Qed.
End Rn.
