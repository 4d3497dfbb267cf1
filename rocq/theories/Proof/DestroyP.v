(** Destroying objects leaves nothing behind. *)
From Coq Require Import NArith Arith List Bool Lia.
From Verif Require Import Lib.Word Lib.Res Model.BlockApi Model.Destroy Spec.Destroy.
Import ListNotations.

Definition effect (h h' : dheap) (fp : list nat) : Prop := exists freed, dh_freed h' = freed ++ dh_freed h /\ length freed = length fp /\ Forall scrubbed freed /\
    (forall x, In x fp -> dh_cell h' x = None) /\ (forall x, ~ In x fp -> dh_cell h' x = dh_cell h x).
Lemma leaves_effect P d : leaves_nothing P d <-> forall h a fp, P h a fp -> exists h', d a h = Ok h' /\ effect h h' fp.
Proof.
  split.
  - intros H h a fp Hp. destruct (H _ _ _ Hp) as (h' & fr & E & R). exists h'. split; [exact E|]. now exists fr.
  - intros H h a fp Hp. destruct (H _ _ _ Hp) as (h' & E & fr & R). now exists h', fr.
Qed.
Lemma effect_trans h h1 h2 f g : effect h h1 f -> effect h1 h2 g -> (forall x, In x f -> ~ In x g) -> effect h h2 (f ++ g).
Proof.
  intros (r & E & L & S & N & O) (r' & E' & L' & S' & N' & O') D. exists (r' ++ r).
  repeat split.
  - now rewrite E', E, app_assoc.
  - rewrite !app_length. lia.
  - now apply Forall_app.
  - intros x Hx. apply in_app_or in Hx. destruct Hx as [Hx|Hx]; [|now apply N']. rewrite O' by now apply D. now apply N.
  - intros x Hx. rewrite O', O; [reflexivity| |]; intros Hc; apply Hx, in_or_app; auto.
Qed.
Lemma effect_perm h h' f g : effect h h' f -> length f = length g -> (forall x, In x f <-> In x g) -> effect h h' g.
Proof.
  intros (r & E & L & S & N & O) Hl Hi. exists r. repeat split; [exact E|lia|exact S| |]; intros x Hx.
  - apply N. now apply Hi.
  - apply O. intros Hc. now apply Hx, Hi.
Qed.
(** wiping then freeing the last piece *)
Lemma effect_free h a c : a <> 0 -> dh_cell h a = Some c -> scrubbed c -> exists h', dfree a h = Ok h' /\ effect h h' [a].
Proof.
  intros Ha Hc Hs. unfold dfree. rewrite (proj2 (Nat.eqb_neq a 0)) by exact Ha. rewrite Hc. eexists. split; [reflexivity|].
  exists [c]. cbn [dh_freed dh_cell app length]. unfold dset. repeat split.
  - now repeat constructor.
  - intros x [<-|[]]. now rewrite Nat.eqb_refl.
  - intros x Hx. rewrite (proj2 (Nat.eqb_neq x a)); [reflexivity|]. intros ->. apply Hx. now left.
Qed.
Lemma zeros_all n : Forall (eq 0%N) (repeat 0%N n).
Proof. induction n; constructor; auto. Qed.
Lemma dwipe_ok h a c off n : dh_cell h a = Some c -> off + n <= length (c_bytes c) -> exists h', dwipe a off n h = Ok h' /\
  dh_freed h' = dh_freed h /\ (forall x, x <> a -> dh_cell h' x = dh_cell h x) /\
  dh_cell h' a = Some {| c_ptrs := c_ptrs c; c_bytes := firstn off (c_bytes c) ++ repeat 0%N n ++ skipn (off + n) (c_bytes c); c_open := c_open c |}.
Proof.
  intros Hc Hl. unfold dwipe. rewrite Hc, (proj2 (Nat.leb_le _ _)) by exact Hl. eexists. split; [reflexivity|]. cbn [dh_freed dh_cell]. unfold dset.
  repeat split.
  - intros x Hx. now rewrite (proj2 (Nat.eqb_neq x a)).
  - now rewrite Nat.eqb_refl.
Qed.
(** wipe and free of one piece *)
Lemma wipe_free h a c off n : a <> 0 -> dh_cell h a = Some c -> off <= c_open c -> off + n <= length (c_bytes c) ->
  Forall (eq 0%N) (skipn (off + n) (c_bytes c)) -> exists h', (dwipe a off n ;;; dfree a) h = Ok h' /\ effect h h' [a].
Proof.
  intros Ha Hc Ho Hl Hz. destruct (dwipe_ok h a c off n Hc Hl) as (h1 & E & F & O & C).
  destruct (effect_free h1 a _ Ha C) as (h2 & E2 & r & F2 & L2 & S2 & N2 & O2).
  - unfold scrubbed. cbn [c_open c_bytes].
    apply Forall_forall. intros x Hx.
    assert (Hi : In x (repeat 0%N n ++ skipn (off + n) (c_bytes c))).
    { rewrite skipn_app, firstn_length_le in Hx by lia. rewrite (skipn_all2 (firstn _ _)) in Hx by (rewrite firstn_length; lia). cbn [app] in Hx.
      rewrite <- (firstn_skipn (c_open c - off) (_ ++ _)). apply in_or_app. now right. }
    apply in_app_or in Hi. destruct Hi as [Hi|Hi]; [now apply repeat_spec in Hi|].
    rewrite Forall_forall in Hz. now apply Hz.
  - exists h2. unfold dseq. rewrite E. split; [exact E2|]. exists r. rewrite <- F. repeat split; try assumption.
    intros x Hx. rewrite O2 by exact Hx. apply O. intros ->. apply Hx. now left.
Qed.

Lemma plain_clean st n : leaves_nothing (plain_thing st n) (plain_destroy st n).
Proof.
  apply leaves_effect. intros h a fp (Ha & -> & b & Hc & Hl). unfold plain_destroy.
  apply (wipe_free h a _ 0 (st + N.to_nat n) Ha Hc); cbn [c_open c_bytes]; [lia|lia|].
  rewrite skipn_all2 by lia. constructor.
Qed.
Lemma desc_clean : leaves_nothing desc_thing dfree.
Proof.
  apply leaves_effect. intros h a fp (Ha & -> & c & Hc & Ho). apply (effect_free h a c Ha Hc).
  unfold scrubbed. rewrite skipn_all2 by lia. constructor.
Qed.
Lemma don_ok h a i d c p : dh_cell h a = Some c -> nth_error (c_ptrs c) i = Some p -> don a i d h = d p h.
Proof. intros Hc Hp. unfold don. now rewrite Hc, Hp. Qed.
Lemma effect_other h h' fp x : effect h h' fp -> ~ In x fp -> dh_cell h' x = dh_cell h x.
Proof. intros (r & _ & _ & _ & _ & O). apply O. Qed.
Lemma dseq_ok p q h h1 : p h = Ok h1 -> (p ;;; q) h = q h1.
Proof. intros E. unfold dseq. now rewrite E. Qed.

Lemma effect_cons h h' a f : effect h h' (f ++ [a]) -> effect h h' (a :: f).
Proof.
  intros H. apply (effect_perm _ _ _ _ H).
  - rewrite app_length. cbn [length]. lia.
  - intros x. rewrite in_app_iff. cbn. tauto.
Qed.
Lemma one_clean P d st n : leaves_nothing P d -> leaves_nothing (one_thing P st n) (one_destroy st d n).
Proof.
  rewrite !leaves_effect. intros HP h a fp (Ha & p & f & b & Hp & Hn & -> & Hc & Hl).
  destruct (HP _ _ _ Hp) as (h1 & E1 & F1). unfold one_destroy.
  rewrite (dseq_ok _ _ h h1) by (rewrite (don_ok h a 0 d _ p Hc eq_refl); exact E1).
  assert (Hc1 : dh_cell h1 a = Some {| c_ptrs := [p]; c_bytes := b; c_open := 0 |}) by (rewrite (effect_other _ _ _ _ F1 Hn); exact Hc).
  destruct (wipe_free h1 a _ 0 (st + N.to_nat n) Ha Hc1) as (h2 & E2 & F2); cbn [c_open c_bytes]; [lia|lia| |].
  - rewrite skipn_all2 by lia. constructor.
  - exists h2. split; [exact E2|]. apply effect_cons. apply (effect_trans _ _ _ _ _ F1 F2). intros x Hx [->|[]]. now apply Hn.
Qed.
Lemma holder_clean P d : leaves_nothing P d -> leaves_nothing (holder P) (keccak_destroy d).
Proof.
  rewrite !leaves_effect. intros HP h a fp (Ha & p & f & c & Hp & Hn & -> & Hc & Hq & Ho).
  destruct (HP _ _ _ Hp) as (h1 & E1 & F1). unfold keccak_destroy.
  rewrite (dseq_ok _ _ h h1) by (rewrite (don_ok h a 0 d _ p Hc ltac:(now rewrite Hq)); exact E1).
  assert (Hc1 : dh_cell h1 a = Some c) by (rewrite (effect_other _ _ _ _ F1 Hn); exact Hc).
  destruct (effect_free h1 a c Ha Hc1) as (h2 & E2 & F2).
  - unfold scrubbed. rewrite skipn_all2 by lia. constructor.
  - exists h2. split; [exact E2|]. apply effect_cons. apply (effect_trans _ _ _ _ _ F1 F2). intros x Hx [->|[]]. now apply Hn.
Qed.

Lemma local_plain st n : local (plain_thing st n).
Proof. intros h h' a fp (Ha & -> & b & Hc & Hl) E. repeat split; [exact Ha|]. exists b. now rewrite (E a (or_introl eq_refl)). Qed.
Lemma local_desc : local desc_thing.
Proof. intros h h' a fp (Ha & -> & c & Hc & Hl) E. repeat split; [exact Ha|]. exists c. now rewrite (E a (or_introl eq_refl)). Qed.
Lemma local_one P st n : local P -> local (one_thing P st n).
Proof.
  intros HP h h' a fp (Ha & p & f & b & Hp & Hn & -> & Hc & Hl) E. split; [exact Ha|]. exists p, f, b. repeat split; try assumption.
  - apply (HP _ _ _ _ Hp). intros x Hx. apply E. now right.
  - now rewrite (E a (or_introl eq_refl)).
Qed.
Lemma local_holder P : local P -> local (holder P).
Proof.
  intros HP h h' a fp (Ha & p & f & b & Hp & Hn & -> & Hc & Hl) E. split; [exact Ha|]. exists p, f, b. repeat split; try assumption.
  - apply (HP _ _ _ _ Hp). intros x Hx. apply E. now right.
  - now rewrite (E a (or_introl eq_refl)).
  - apply Hl.
  - apply Hl.
Qed.

(** a further object of the same owner is untouched *)
Lemma kept P h h' f a g : local P -> effect h h' f -> P h a g -> (forall x, In x g -> ~ In x f) -> P h' a g.
Proof. intros HP HF Hp D. apply (HP _ _ _ _ Hp). intros x Hx. apply (effect_other _ _ _ _ HF). now apply D. Qed.
Lemma step_child P d (q : dprog) h a i c p f : leaves_nothing P d -> P h p f -> dh_cell h a = Some c -> nth_error (c_ptrs c) i = Some p -> ~ In a f ->
  exists h1, (don a i d ;;; q) h = q h1 /\ effect h h1 f /\ dh_cell h1 a = Some c.
Proof.
  rewrite leaves_effect. intros HP Hp Hc Hn Ha. destruct (HP _ _ _ Hp) as (h1 & E & F). exists h1. split; [|split; [exact F|]].
  - apply dseq_ok. now rewrite (don_ok h a i d c p Hc Hn).
  - now rewrite (effect_other _ _ _ _ F Ha).
Qed.

Lemma nodup_apart (l r : list nat) x : NoDup (l ++ r) -> In x l -> ~ In x r.
Proof.
  induction l as [|y l IH]; intros H Hx Hr; [destruct Hx|]. cbn in H. inversion H as [|? ? H1 H2]; subst. destruct Hx as [->|Hx].
  - apply H1, in_or_app. now right.
  - now apply IH.
Qed.
Lemma nodup_right (l r : list nat) : NoDup (l ++ r) -> NoDup r.
Proof. induction l as [|y l IH]; intros H; [exact H|]. inversion H; subst. now apply IH. Qed.

Lemma eax2_clean S M ds dm st len : local S -> local M -> leaves_nothing S ds -> leaves_nothing M dm ->
  leaves_nothing (eax2_thing S M st len) (eax2_destroy st ds dm len).
Proof.
  intros LS LM HS HM. apply leaves_effect. intros h a fp (Ha & s & m & k & fs & fm & fk & b & Hs & Hm & Hk & -> & D & Hc & Hl & Hz).
  unfold apart in D. cbn [concat] in D. rewrite app_nil_r in D.
  assert (D1 := fun x => nodup_apart _ _ x D). assert (R1 := nodup_right _ _ D).
  assert (D2 := fun x => nodup_apart _ _ x R1). assert (R2 := nodup_right _ _ R1).
  assert (D3 := fun x => nodup_apart _ _ x R2). cbn [In] in D1.
  assert (A : ~ In a fs /\ ~ In a fm /\ ~ In a fk).
  { specialize (D1 a (or_introl eq_refl)). rewrite !in_app_iff in D1. tauto. }
  unfold eax2_destroy.
  destruct (step_child S ds (don a 1 dm ;;; don a 2 dm ;;; dwipe a st len ;;; dfree a) h a 0 _ s fs HS Hs Hc eq_refl (proj1 A)) as (h1 & -> & F1 & C1).
  assert (Hm1 : M h1 m fm) by (apply (kept M _ _ _ _ _ LM F1 Hm); intros x Hx Hc'; apply (D2 x Hc'), in_or_app; now left).
  assert (Hk1 : M h1 k fk) by (apply (kept M _ _ _ _ _ LM F1 Hk); intros x Hx Hc'; apply (D2 x Hc'), in_or_app; now right).
  destruct (step_child M dm (don a 2 dm ;;; dwipe a st len ;;; dfree a) h1 a 1 _ m fm HM Hm1 C1 eq_refl (proj1 (proj2 A))) as (h2 & -> & F2 & C2).
  assert (Hk2 : M h2 k fk) by (apply (kept M _ _ _ _ _ LM F2 Hk1); intros x Hx Hc'; now apply (D3 x Hc')).
  destruct (step_child M dm (dwipe a st len ;;; dfree a) h2 a 2 _ k fk HM Hk2 C2 eq_refl (proj2 (proj2 A))) as (h3 & -> & F3 & C3).
  destruct (wipe_free h3 a _ st len Ha C3) as (h4 & E4 & F4); cbn [c_open c_bytes]; [lia|lia|exact Hz|].
  exists h4. split; [exact E4|]. apply effect_cons. rewrite <- !app_assoc.
  apply (effect_trans _ _ _ _ _ F1); [|intros x Hx; rewrite !in_app_iff; cbn [In]; specialize (D2 x Hx); rewrite in_app_iff in D2; intros [H|[H|[H|[]]]]; subst; tauto].
  apply (effect_trans _ _ _ _ _ F2); [|intros x Hx; rewrite in_app_iff; cbn [In]; specialize (D3 x Hx); intros [H|[H|[]]]; subst; tauto].
  apply (effect_trans _ _ _ _ _ F3 F4). intros x Hx [<-|[]]. tauto.
Qed.

Lemma dwipe_kept h h' a off n (P : thing) p f c : dwipe a off n h = Ok h' -> dh_cell h a = Some c -> off + n <= length (c_bytes c) -> local P -> P h p f -> ~ In a f -> P h' p f.
Proof.
  intros E Hc Hl HP Hp Hn. destruct (dwipe_ok h a c off n Hc Hl) as (h1 & E1 & _ & O & _). rewrite E in E1. injection E1 as <-.
  apply (HP _ _ _ _ Hp). intros x Hx. apply O. intros ->. now apply Hn.
Qed.
Lemma eax_clean S M ds dm st len : local S -> local M -> leaves_nothing S ds -> leaves_nothing M dm ->
  leaves_nothing (eax_thing S M st len) (eax_destroy st ds dm len).
Proof.
  intros LS LM HS HM. apply leaves_effect. intros h a fp (Ha & s & m & k & d & e & fs & fm & fk & b & Hs & Hm & Hk & Hd & He & -> & D & Hc & Hl).
  unfold apart in D. cbn [concat] in D. rewrite app_nil_r in D.
  assert (D1 := fun x => nodup_apart _ _ x D). assert (R1 := nodup_right _ _ D).
  assert (D2 := fun x => nodup_apart _ _ x R1). assert (R2 := nodup_right _ _ R1).
  assert (D3 := fun x => nodup_apart _ _ x R2). assert (R3 := nodup_right _ _ R2).
  assert (D4 := fun x => nodup_apart _ _ x R3). assert (R4 := nodup_right _ _ R3).
  assert (D5 := fun x => nodup_apart _ _ x R4). cbn [In app] in D1, D2, D3, D4, D5.
  assert (A : ~ In a fs /\ ~ In a fm /\ ~ In a fk /\ a <> d /\ a <> e).
  { specialize (D1 a (or_introl eq_refl)). rewrite !in_app_iff in D1. cbn [In] in D1. repeat split; try tauto; intros ->; tauto. }
  destruct A as (A1 & A2 & A3 & A4 & A5).
  unfold eax_destroy.
  destruct (step_child S ds (don a 1 dm ;;; don a 2 dm ;;; dwipe a st len ;;; don a 3 dfree ;;; don a 4 dfree ;;; dfree a) h a 0 _ s fs HS Hs Hc eq_refl A1) as (h1 & -> & F1 & C1).
  assert (K1 : forall P p f, local P -> P h p f -> (forall x, In x f -> In x (fm ++ fk ++ [d; e])) -> P h1 p f).
  { intros P p f LP Hp Hi. apply (kept P _ _ _ _ _ LP F1 Hp). intros x Hx Hc'. exact (D2 x Hc' (Hi x Hx)). }
  assert (Hm1 : M h1 m fm) by (apply (K1 M); [exact LM|exact Hm|]; intros x Hx; apply in_or_app; now left).
  assert (Hk1 : M h1 k fk) by (apply (K1 M); [exact LM|exact Hk|]; intros x Hx; apply in_or_app; right; apply in_or_app; now left).
  assert (Hd1 : desc_thing h1 d [d]) by (apply (K1 desc_thing); [exact local_desc|exact Hd|]; intros x [<-|[]]; rewrite !in_app_iff; cbn [In]; auto).
  assert (He1 : desc_thing h1 e [e]) by (apply (K1 desc_thing); [exact local_desc|exact He|]; intros x [<-|[]]; rewrite !in_app_iff; cbn [In]; auto).
  destruct (step_child M dm (don a 2 dm ;;; dwipe a st len ;;; don a 3 dfree ;;; don a 4 dfree ;;; dfree a) h1 a 1 _ m fm HM Hm1 C1 eq_refl A2) as (h2 & -> & F2 & C2).
  assert (K2 : forall P p f, local P -> P h1 p f -> (forall x, In x f -> In x (fk ++ [d; e])) -> P h2 p f).
  { intros P p f LP Hp Hi. apply (kept P _ _ _ _ _ LP F2 Hp). intros x Hx Hc'. exact (D3 x Hc' (Hi x Hx)). }
  assert (Hk2 : M h2 k fk) by (apply (K2 M); [exact LM|exact Hk1|]; intros x Hx; apply in_or_app; now left).
  assert (Hd2 : desc_thing h2 d [d]) by (apply (K2 desc_thing); [exact local_desc|exact Hd1|]; intros x [<-|[]]; rewrite !in_app_iff; cbn [In]; auto).
  assert (He2 : desc_thing h2 e [e]) by (apply (K2 desc_thing); [exact local_desc|exact He1|]; intros x [<-|[]]; rewrite !in_app_iff; cbn [In]; auto).
  destruct (step_child M dm (dwipe a st len ;;; don a 3 dfree ;;; don a 4 dfree ;;; dfree a) h2 a 2 _ k fk HM Hk2 C2 eq_refl A3) as (h3 & -> & F3 & C3).
  assert (K3 : forall P p f, local P -> P h2 p f -> (forall x, In x f -> In x [d; e]) -> P h3 p f).
  { intros P p f LP Hp Hi. apply (kept P _ _ _ _ _ LP F3 Hp). intros x Hx Hc'. exact (D4 x Hc' (Hi x Hx)). }
  assert (Hd3 : desc_thing h3 d [d]) by (apply (K3 desc_thing); [exact local_desc|exact Hd2|]; intros x [<-|[]]; cbn [In]; auto).
  assert (He3 : desc_thing h3 e [e]) by (apply (K3 desc_thing); [exact local_desc|exact He2|]; intros x [<-|[]]; cbn [In]; auto).
  assert (L3 : st + len <= length b) by lia.
  destruct (dwipe_ok h3 a _ st len C3 L3) as (h4 & E4 & Fr4 & O4 & C4). cbn [c_ptrs c_bytes c_open] in C4.
  rewrite (dseq_ok (dwipe a st len) _ h3 h4 E4).
  assert (Hd4 : desc_thing h4 d [d]) by (apply (local_desc _ _ _ _ Hd3); intros x [<-|[]]; apply O4; auto).
  assert (He4 : desc_thing h4 e [e]) by (apply (local_desc _ _ _ _ He3); intros x [<-|[]]; apply O4; auto).
  destruct (step_child desc_thing dfree (don a 4 dfree ;;; dfree a) h4 a 3 _ d [d] desc_clean Hd4 C4 eq_refl) as (h5 & -> & F5 & C5); [cbn; intuition congruence|].
  assert (He5 : desc_thing h5 e [e]).
  { apply (kept desc_thing _ _ _ _ _ local_desc F5 He4). intros x [<-|[]] [Hx|[]]. exact (D5 d (or_introl eq_refl) (or_introl (eq_sym Hx))). }
  destruct (step_child desc_thing dfree (dfree a) h5 a 4 _ e [e] desc_clean He5 C5 eq_refl) as (h6 & -> & F6 & C6); [cbn; intuition congruence|].
  destruct (effect_free h6 a _ Ha C6) as (h7 & E7 & F7).
  { unfold scrubbed. cbn [c_open c_bytes]. rewrite skipn_app, skipn_firstn_comm, firstn_length_le by lia. rewrite !Nat.sub_diag. cbn [firstn app skipn].
    rewrite skipn_all2 by lia. rewrite app_nil_r. apply zeros_all. }
  exists h7. split; [exact E7|]. apply effect_cons.
  assert (F4 : effect h3 h7 ([d] ++ [e] ++ [a])).
  { assert (F : effect h4 h7 ([d] ++ [e] ++ [a])).
    { apply (effect_trans _ _ _ _ _ F5); [apply (effect_trans _ _ _ _ _ F6 F7)|].
      - intros x [<-|[]] [H|[]]. now apply A5.
      - intros x [<-|[]] [H|[H|[]]]; [exact (D5 d (or_introl eq_refl) (or_introl H))|now apply A4]. }
    destruct F as (r & E & L & Sc & N & O). exists r. rewrite <- Fr4. repeat split; try assumption.
    intros x Hx. rewrite O by exact Hx. apply O4. intros ->. apply Hx. cbn. auto. }
  replace ((fs ++ fm ++ fk ++ [d; e]) ++ [a]) with (fs ++ fm ++ fk ++ [d] ++ [e] ++ [a]) by now rewrite <- !app_assoc.
  apply (effect_trans _ _ _ _ _ F1); [apply (effect_trans _ _ _ _ _ F2); [apply (effect_trans _ _ _ _ _ F3 F4)|]|].
  - intros x Hx [H|[H|[H|[]]]]; [exact (D4 x Hx (or_introl H))|exact (D4 x Hx (or_intror (or_introl H)))|subst x; exact (A3 Hx)].
  - intros x Hx Hy. specialize (D3 x Hx). rewrite in_app_iff in D3, Hy. destruct Hy as [H|[H|[H|[H|[]]]]]; [tauto|apply D3; right; now left|apply D3; right; right; now left|subst x; exact (A2 Hx)].
  - intros x Hx Hy. specialize (D2 x Hx). cbn [app] in Hy. rewrite !in_app_iff in D2, Hy. destruct Hy as [H|[H|[H|[H|[H|[]]]]]]; [tauto|tauto|apply D2; right; right; now left|apply D2; right; right; right; now left|subst x; exact (A1 Hx)].
Qed.
Lemma random_clean S ds st : local S -> leaves_nothing S ds -> leaves_nothing (random_thing S st) (random_destroy st ds).
Proof.
  intros LS HS. apply leaves_effect. intros h a fp (Ha & s & d & fs & b & Hs & Hd & -> & D & Hc & Hl).
  unfold apart in D. cbn [concat] in D. rewrite app_nil_r in D.
  assert (D1 := fun x => nodup_apart _ _ x D). assert (R1 := nodup_right _ _ D).
  assert (D2 := fun x => nodup_apart _ _ x R1). cbn [In app] in D1, D2.
  assert (A : ~ In a fs /\ a <> d).
  { specialize (D1 a (or_introl eq_refl)). rewrite !in_app_iff in D1. cbn [In] in D1. split; [tauto|]; intros ->; tauto. }
  destruct A as (A1 & A2). unfold random_destroy.
  destruct (step_child S ds (don a 1 dfree ;;; dwipe a 0 st ;;; dfree a) h a 0 _ s fs HS Hs Hc eq_refl A1) as (h1 & -> & F1 & C1).
  assert (Hd1 : desc_thing h1 d [d]).
  { apply (kept desc_thing _ _ _ _ _ local_desc F1 Hd). intros x [<-|[]] Hc'. exact (D2 d Hc' (or_introl eq_refl)). }
  destruct (step_child desc_thing dfree (dwipe a 0 st ;;; dfree a) h1 a 1 _ d [d] desc_clean Hd1 C1 eq_refl) as (h2 & -> & F2 & C2); [cbn; intuition congruence|].
  destruct (wipe_free h2 a _ 0 st Ha C2) as (h3 & E3 & F3); cbn [c_open c_bytes]; [lia|lia| |].
  - rewrite skipn_all2 by lia. constructor.
  - exists h3. split; [exact E3|]. apply effect_cons. rewrite <- app_assoc.
    apply (effect_trans _ _ _ _ _ F1); [apply (effect_trans _ _ _ _ _ F2 F3)|].
    + intros x [<-|[]] [H|[]]. now apply A2.
    + intros x Hx [H|[H|[]]]; [exact (D2 x Hx (or_introl H))|subst x; exact (A1 Hx)].
Qed.
Lemma local_eax S M st len : local S -> local M -> local (eax_thing S M st len).
Proof.
  intros LS LM h h' a fp (Ha & s & m & k & d & e & fs & fm & fk & b & Hs & Hm & Hk & Hd & He & -> & D & Hc & Hl) E.
  split; [exact Ha|]. exists s, m, k, d, e, fs, fm, fk, b.
  split; [apply (LS _ _ _ _ Hs); intros x Hx; apply E; cbn [In]; rewrite !in_app_iff; auto|].
  split; [apply (LM _ _ _ _ Hm); intros x Hx; apply E; cbn [In]; rewrite !in_app_iff; auto|].
  split; [apply (LM _ _ _ _ Hk); intros x Hx; apply E; cbn [In]; rewrite !in_app_iff; auto|].
  split; [apply (local_desc _ _ _ _ Hd); intros x [<-|[]]; apply E; cbn [In]; rewrite !in_app_iff; cbn [In]; auto 8|].
  split; [apply (local_desc _ _ _ _ He); intros x [<-|[]]; apply E; cbn [In]; rewrite !in_app_iff; cbn [In]; auto 8|].
  split; [reflexivity|]. split; [exact D|]. split; [|exact Hl]. rewrite (E a (or_introl eq_refl)). exact Hc.
Qed.
