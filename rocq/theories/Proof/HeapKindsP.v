(** The objects of Model/Heap.v keep their contracts. *)
From Coq Require Import Arith List Bool Lia.
From Verif Require Import Lib.Res Model.Heap Spec.Heap Proof.HeapP.
Import ListNotations.

(** ** symbolic execution; the state is the hypothesis HS *)
Ltac find_pt a l k := lazymatch l with pt a _ :: _ => k 0 | _ :: ?r => find_pt a r ltac:(fun n => k (S n)) end.
Ltac find x l k := lazymatch l with x :: _ => k 0 | _ :: ?r => find x r ltac:(fun n => k (S n)) end.
Ltac find_opt a l k := lazymatch l with opt _ _ a :: _ => k 0 | _ :: ?r => find_opt a r ltac:(fun n => k (S n)) end.
Ltac to_front HS i := apply (state_pick _ i) in HS; cbn [pick nth_error firstn skipn app] in HS.
Ltac bring_pt a := match goal with HS : state _ ?l _ |- _ => find_pt a l ltac:(fun i => to_front HS i) end.
Ltac bring x := match goal with HS : state _ ?l _ |- _ => find x l ltac:(fun i => to_front HS i) end.
Ltac bring_opt a := match goal with HS : state _ ?l _ |- _ => find_opt a l ltac:(fun i => to_front HS i) end.
Ltac renew HS := clear HS; let h' := fresh "h" in intros h' HS; cbn [app upd repeat] in HS.
Ltac renew1 HS := clear HS; let r := fresh "r" in let h' := fresh "h" in intros r h' HS; cbn [app upd repeat] in HS.
Ltac call T HS := eapply wp_call; [exact T|cbn [app]; exact HS|]; renew1 HS.
Ltac call0 T HS := eapply wp_call with (P := []); [exact T|cbn [app]; exact HS|]; renew1 HS.
Ltac null HS := let E := fresh "EL" in apply state_null in HS; destruct HS as [E HS].
Ltac cases a HS := bring_opt a; let E := fresh "E" in destruct (Nat.eqb_spec a 0) as [E|E]; cbn [negb]; [subst a; null HS|apply (state_some _ _ _ _ _ E) in HS; cbv beta in HS].
Ltac step := cbv beta; lazymatch goal with
  | |- wp (seq_ _ _) _ _ => apply wp_seq
  | |- wp (ret _) _ _ => apply wp_ret
  | HS : state _ _ ?h |- wp (hget ?a _) _ ?h => bring_pt a; eapply wp_get; [exact HS|reflexivity|]
  | HS : state _ _ ?h |- wp (hset ?a _ _) _ ?h => bring_pt a; eapply wp_set; [exact HS|cbn [length repeat]; lia|]; renew HS
  | HS : state _ _ ?h |- wp (hfree ?a) _ ?h => bring_pt a; eapply wp_free; [exact HS|]; renew HS
  | HS : state _ _ ?h |- wp (look ?a) _ ?h => bring_pt a; eapply wp_look; [exact HS|]
  | HS : state _ _ ?h |- wp (halloc _) _ ?h => eapply wp_alloc; [exact HS|]; renew1 HS
  | HS : state _ _ ?h |- wp renews _ ?h => eapply wp_renews; [exact HS|]; renew1 HS
  | HS : state _ _ ?h |- wp (if ?a =? 0 then _ else _) _ ?h =>
      cases a HS
  | HS : state _ _ ?h |- wp (if negb (?a =? 0) then _ else _) _ ?h => cases a HS
  | HS : state _ _ ?h |- wp (if ?b then _ else _) _ ?h => destruct b
  | HS : state _ _ ?h, C : contract _ ?k ?own |- wp (kd_create ?k) _ ?h => call0 (ct_create _ _ _ C) HS
  | HS : state _ _ ?h, C : contract _ ?k ?own |- wp (kd_use ?k ?a) _ ?h => bring (own a); call (ct_use _ _ _ C a) HS
  | HS : state _ _ ?h, C : contract _ ?k ?own |- wp (kd_tag ?k ?a) _ ?h => bring (own a); call (ct_tag _ _ _ C a) HS
  | HS : state _ _ ?h, C : contract _ ?k ?own |- wp (kd_destroy ?k ?a) _ ?h => bring (own a); call (ct_destroy _ _ _ C a) HS
  | HS : state _ _ ?h, R : recreates _ ?k ?own |- wp (kd_recreate ?k ?a) _ ?h => bring (own a); call (R a) HS
  | HS : state _ _ ?h, R : in_place _ ?k ?own |- wp (kd_recreate ?k ?a) _ ?h => bring (own a); eapply wp_mono; [exact (R a _ _ HS)|]; clear HS; intros ? ? [-> HS]
  end.
Ltac start := intros F h HS; cbn [app] in HS.
Ltac open_own D := match goal with HS : state _ (_ :: _) _ |- _ => unfold D in HS at 1; apply state_exs in HS; let p := fresh "p" in destruct HS as [p HS]; cbn [app] in HS end.

Section Kinds.
  Variable lucky : bool.
  Local Notation state := (state lucky).
  Local Notation contract := (contract lucky).
  Local Notation opt := (opt lucky).

  Definition own_plain (a : nat) : hprop := pt a [].
  Lemma plain_contract k : kd_create k = halloc 0 -> kd_use k = plain_use -> kd_tag k = plain_use -> kd_destroy k = plain_destroy -> contract k own_plain.
  Proof.
    intros E1 E2 E3 E4. split.
    - intros a c [N _]. exact N.
    - rewrite E1. start. step. exact HS.
    - rewrite E2. unfold plain_use. intros a. start. unfold own_plain in *. repeat step. exact HS.
    - rewrite E3. unfold plain_use. intros a. start. unfold own_plain in *. repeat step. exact HS.
    - rewrite E4. unfold plain_destroy. intros a. start. unfold own_plain in *. repeat step. exact HS.
  Qed.
  Lemma plain_ok : contract plain own_plain.
  Proof. apply plain_contract; reflexivity. Qed.
  Lemma plain_in_place : in_place lucky plain own_plain.
  Proof. intros a F h HS. unfold own_plain in *. cbn [kd_recreate plain]. repeat step. split; [reflexivity|exact HS]. Qed.
  Lemma renewing_ok : contract renewing own_plain.
  Proof. apply plain_contract; reflexivity. Qed.
  Lemma renewing_recreates : recreates lucky renewing own_plain.
  Proof.
    intros a. start. unfold own_plain in *. cbn [kd_recreate renewing]. unfold plain_destroy. repeat step; [exact HS|]. apply some_state; [|exact HS]. exact (proj2 (pt_cell _ _ _ _ _ HS)).
  Qed.

  (** *** one pointer *)
  Definition own_one (own : nat -> hprop) (s : nat) : hprop := exs (fun p => [pt s [p]; own p]).
  Lemma one_nonnull own s c : own_one own s c -> s <> 0.
  Proof. intros (p & c1 & c2 & _ & [N _] & _). exact N. Qed.
  Lemma one_close own s p F h : state (pt s [p] :: own p :: F) h -> state (own_one own s :: F) h.
  Proof. intros H. apply (exs_state lucky (fun p => [pt s [p]; own p]) F h p). exact H. Qed.
  Lemma one_some own s p F h : state (pt s [p] :: own p :: F) h -> state (opt (own_one own) s :: F) h.
  Proof. intros H. apply some_state; [exact (proj2 (pt_cell _ _ _ _ _ H))|]. exact (one_close own s p F h H). Qed.
  Ltac close1 own s := match goal with HS : HeapP.state _ ?l _ |- _ => match l with context [pt s [?p]] => bring (own p); bring_pt s end end;
    match goal with HS : HeapP.state _ _ _ |- _ => first [exact (one_close own s _ _ _ HS)|exact (one_some own s _ _ _ HS)] end.
  Ltac none := match goal with HS : HeapP.state _ _ _, E : lucky = false |- _ => apply null_state; [exact E|exact HS] end.

  Section One.
    Context (b : kind) (own : nat -> hprop) (C : contract b own).
    Local Notation one := (own_one own).
    Lemma one_use s : triple lucky [one s] (mode_use b s) (fun _ => [one s]).
    Proof. start. unfold mode_use. open_own own_one. repeat step. close1 own s. Qed.
    Lemma one_destroy s : triple lucky [one s] (mode_destroy b s) (fun _ => []).
    Proof. start. unfold mode_destroy. open_own own_one. repeat step. exact HS. Qed.
    Lemma mode_ok : contract (mode_kind b) one.
    Proof.
      split; cbn [kd_create kd_recreate kd_use kd_tag kd_destroy mode_kind].
      - exact (one_nonnull own).
      - start. unfold mode_create. repeat step; try none. close1 own r.
      - exact one_use.
      - exact one_use.
      - exact one_destroy.
    Qed.
    Lemma mode_recreates : recreates lucky b own -> recreates lucky (mode_kind b) one.
    Proof. intros R s. start. cbn [kd_recreate mode_kind]. unfold mode_recreate. open_own own_one. repeat step; try none. close1 own s. Qed.

    Lemma omac_ok : contract (omac_kind b) one.
    Proof.
      split; cbn [kd_create kd_recreate kd_use kd_tag kd_destroy omac_kind].
      - exact (one_nonnull own).
      - start. unfold omac_create, mode_use. repeat step; try none. close1 own r.
      - exact one_use.
      - exact one_use.
      - exact one_destroy.
    Qed.
    Lemma omac_recreates : recreates lucky b own -> recreates lucky (omac_kind b) one.
    Proof. intros R s. start. cbn [kd_recreate omac_kind]. unfold omac_recreate, mode_use. open_own own_one. repeat step; try none. close1 own s. Qed.

    Lemma xcbc_ok : recreates lucky b own -> contract (xcbc_kind b) one.
    Proof.
      intros R. split; cbn [kd_create kd_recreate kd_use kd_tag kd_destroy xcbc_kind].
      - exact (one_nonnull own).
      - start. unfold xcbc_create, xcbc_init, mode_use. repeat step; try none. close1 own r.
      - exact one_use.
      - exact one_use.
      - exact one_destroy.
    Qed.
    Lemma xcbc_recreates : recreates lucky b own -> recreates lucky (xcbc_kind b) one.
    Proof. intros R s. start. cbn [kd_recreate xcbc_kind]. unfold xcbc_recreate, xcbc_init, mode_use. open_own own_one. repeat step; try none. close1 own s. Qed.

    (** Skein drops the result of recreate *)
    Lemma skein_use s : in_place lucky b own -> triple lucky [one s] (skein_process b s) (fun _ => [one s]).
    Proof. intros R. start. unfold skein_process. open_own own_one. repeat step. close1 own s. Qed.
    Lemma skein_ok : in_place lucky b own -> contract (skein_kind b) one.
    Proof.
      intros R. split; cbn [kd_create kd_recreate kd_use kd_tag kd_destroy skein_kind].
      - exact (one_nonnull own).
      - start. unfold skein_create, skein_recreate, skein_process. repeat step; try none. close1 own r.
      - intros s. exact (skein_use s R).
      - intros s. exact (skein_use s R).
      - exact one_destroy.
    Qed.
    Lemma skein_in_place : in_place lucky b own -> in_place lucky (skein_kind b) one.
    Proof. intros R s F h HS. cbn [kd_recreate skein_kind]. unfold skein_recreate, skein_process. open_own own_one. repeat step. split; [reflexivity|]. close1 own s. Qed.
    Lemma skein_all_ok : in_place lucky b own -> balanced lucky (skein_all b).
    Proof. intros R. start. unfold skein_all. repeat step; [|exact HS]. now apply unlucky_state. Qed.

    (** ** MACs over hashes *)
    Lemma keccak_ok : contract (keccak_kind b) one.
    Proof.
      split; cbn [kd_create kd_recreate kd_use kd_tag kd_destroy keccak_kind].
      - exact (one_nonnull own).
      - start. unfold keccak_create. repeat step; try none. close1 own r.
      - exact one_use.
      - intros s. start. unfold keccak_tag. open_own own_one. repeat step. close1 own s.
      - intros s. start. unfold keccak_destroy. open_own own_one. repeat step. exact HS.
    Qed.
    Lemma keccak_in_place : in_place lucky b own -> in_place lucky (keccak_kind b) one.
    Proof. intros R s F h HS. cbn [kd_recreate keccak_kind]. unfold keccak_recreate. open_own own_one. repeat step. split; [reflexivity|]. close1 own s. Qed.

    Section Hmac.
      Context (all : option (prog bool)) (A : match all with Some p => balanced lucky p | None => True end).
      Lemma all_ok : balanced lucky (match all with Some p => p | None => ret true end).
      Proof. destruct all; [exact A|]. start. repeat step. exact HS. Qed.
      Lemma hmac_init_ok p s : triple lucky [pt s [p]; own p] (hmac_init b all s) (fun r => if r then [pt s [p]; own p] else [unlucky lucky; pt s [p]; own p]).
      Proof.
        start. unfold hmac_init, mode_use. step. eapply wp_call with (P := []); [exact all_ok|exact HS|]. clear h HS. intros r h HS.
        destruct r; cbn [outcome app] in *; repeat step; [|exact HS]. bring (own p). bring_pt s. exact HS.
      Qed.
      Lemma hmac_ok : in_place lucky b own -> contract (hmac_kind b all) one.
      Proof.
        intros R. split; cbn [kd_create kd_recreate kd_use kd_tag kd_destroy hmac_kind].
        - exact (one_nonnull own).
        - start. unfold hmac_create, hmac_destroy. repeat step; try none. bring (own r0). bring_pt r. call (hmac_init_ok r0 r) HS.
          destruct r1; cbn [app] in HS; repeat step; [close1 own r|]. apply state_unlucky in HS. destruct HS as [EL HS]. none.
        - exact one_use.
        - intros s. start. unfold hmac_tag. open_own own_one. repeat step. close1 own s.
        - intros s. start. unfold hmac_destroy. open_own own_one. repeat step. exact HS.
      Qed.
      Lemma hmac_recreates : recreates lucky b own -> recreates lucky (hmac_kind b all) one.
      Proof.
        intros R s. start. cbn [kd_recreate hmac_kind]. unfold hmac_recreate, hmac_destroy. open_own own_one. repeat step; try none.
        bring (own r). bring_pt s. call (hmac_init_ok r s) HS. destruct r0; cbn [app] in HS; repeat step; [close1 own s|]. apply state_unlucky in HS. destruct HS as [EL HS]. none.
      Qed.
    End Hmac.
    Lemma hmac_in_place : in_place lucky b own -> in_place lucky (hmac_kind b None) one.
    Proof. intros R s F h HS. cbn [kd_recreate hmac_kind]. unfold hmac_recreate, hmac_init, mode_use. open_own own_one. repeat step.
      bring (own p). assert (N := own_nonnull lucky b own p _ _ C HS). apply Nat.eqb_neq in N. rewrite N. repeat step. split; [reflexivity|]. close1 own s.
    Qed.
  End One.

  (** ** EAX *)
  Definition own_eax (oc om : nat -> hprop) (s : nat) : hprop :=
    exs (fun '(d0, d1, c, m, hd) => [pt s [d0; d1; c; m; hd]; pt d0 []; pt d1 []; oc c; om m; om hd]).
  Lemma eax_nonnull oc om s c : own_eax oc om s c -> s <> 0.
  Proof. intros ([[[[d0 d1] p] m] hd] & c1 & c2 & _ & [N _] & _). exact N. Qed.
  Lemma eax_close oc om s d0 d1 c m hd F h : state (pt s [d0; d1; c; m; hd] :: pt d0 [] :: pt d1 [] :: oc c :: om m :: om hd :: F) h -> state (own_eax oc om s :: F) h.
  Proof. intros H. exact (exs_state lucky (fun '(d0, d1, c, m, hd) => [pt s [d0; d1; c; m; hd]; pt d0 []; pt d1 []; oc c; om m; om hd]) F h (d0, d1, c, m, hd) H). Qed.
  Lemma eax_some oc om s d0 d1 c m hd F h : state (pt s [d0; d1; c; m; hd] :: pt d0 [] :: pt d1 [] :: oc c :: om m :: om hd :: F) h -> state (opt (own_eax oc om) s :: F) h.
  Proof. intros H. apply some_state; [exact (proj2 (pt_cell _ _ _ _ _ H))|]. exact (eax_close _ _ _ _ _ _ _ _ _ _ H). Qed.
  Ltac close_eax oc om s := match goal with HS : HeapP.state _ ?l _ |- _ => match l with context [pt s [?d0; ?d1; ?c; ?m; ?hd]] => bring (om hd); bring (om m); bring (oc c); bring_pt d1; bring_pt d0; bring_pt s end end;
    match goal with HS : HeapP.state _ _ _ |- _ => first [exact (eax_close oc om s _ _ _ _ _ _ _ HS)|exact (eax_some oc om s _ _ _ _ _ _ _ HS)] end.
  Ltac open_eax := match goal with HS : HeapP.state _ (_ :: _) _ |- _ => unfold own_eax in HS at 1; apply state_exs in HS; destruct HS as [[[[[d0 d1] c] m] hd] HS]; cbn [app] in HS end.
  Section Eax.
    Context (b : kind) (oc om : nat -> hprop).
    Context (Cc : contract (mode_kind b) oc) (Cm : contract (omac_kind b) om) (Rm : recreates lucky (omac_kind b) om).
    Lemma eax_ok : contract (eax_kind b) (own_eax oc om).
    Proof.
      split; cbn [kd_create kd_recreate kd_use kd_tag kd_destroy eax_kind].
      - exact (eax_nonnull oc om).
      - start. unfold eax_create, eax_err7, eax_err6, eax_err5, eax_err4, eax_err3, eax_err2, eax_err1. repeat step; try none. close_eax oc om r0.
      - intros s. start. unfold eax_use. open_eax. repeat step. close_eax oc om s.
      - intros s. start. unfold eax_tag. open_eax. repeat step. close_eax oc om s.
      - intros s. start. unfold eax_destroy. open_eax. repeat step. exact HS.
    Qed.
    (** only if no allocation fails *)
    Lemma eax_recreates : recreates lucky (mode_kind b) oc -> lucky = true -> recreates lucky (eax_kind b) (own_eax oc om).
    Proof.
      intros Rc L s. start. cbn [kd_recreate eax_kind]. unfold eax_recreate. open_eax. repeat (step; try (exfalso; congruence)). close_eax oc om s.
    Qed.
  End Eax.

  (** ** EAX2 *)
  Definition own_eax2 (oc om : nat -> hprop) (s : nat) : hprop := exs (fun '(c, m, hd) => [pt s [c; m; hd]; oc c; om m; om hd]).
  Lemma eax2_nonnull oc om s c : own_eax2 oc om s c -> s <> 0.
  Proof. intros ([[p m] hd] & c1 & c2 & _ & [N _] & _). exact N. Qed.
  Lemma eax2_close oc om s c m hd F h : state (pt s [c; m; hd] :: oc c :: om m :: om hd :: F) h -> state (own_eax2 oc om s :: F) h.
  Proof. intros H. exact (exs_state lucky (fun '(c, m, hd) => [pt s [c; m; hd]; oc c; om m; om hd]) F h (c, m, hd) H). Qed.
  Lemma eax2_some oc om s c m hd F h : state (pt s [c; m; hd] :: oc c :: om m :: om hd :: F) h -> state (opt (own_eax2 oc om) s :: F) h.
  Proof. intros H. apply some_state; [exact (proj2 (pt_cell _ _ _ _ _ H))|]. exact (eax2_close _ _ _ _ _ _ _ _ H). Qed.
  Ltac close_eax2 oc om s := match goal with HS : HeapP.state _ ?l _ |- _ => match l with context [pt s [?c; ?m; ?hd]] => bring (om hd); bring (om m); bring (oc c); bring_pt s end end;
    match goal with HS : HeapP.state _ _ _ |- _ => first [exact (eax2_close oc om s _ _ _ _ _ HS)|exact (eax2_some oc om s _ _ _ _ _ HS)] end.
  Ltac open_eax2 := match goal with HS : HeapP.state _ (_ :: _) _ |- _ => unfold own_eax2 in HS at 1; apply state_exs in HS; destruct HS as [[[c m] hd] HS]; cbn [app] in HS end.
  Section Eax2.
    Context (st mac : kind) (oc om : nat -> hprop).
    Context (Cc : contract st oc) (Cm : contract mac om) (Rm : recreates lucky mac om).
    Lemma eax2_create_ok : triple lucky [] (eax2_create st mac) (fun r => [opt (own_eax2 oc om) r]).
    Proof. start. unfold eax2_create, eax2_err5, eax2_err4, eax2_err3, eax2_err2, eax2_err1. repeat step; try none. close_eax2 oc om r0. Qed.
    Lemma eax2_destroy_ok s : triple lucky [own_eax2 oc om s] (eax2_destroy st mac s) (fun _ => []).
    Proof. start. unfold eax2_destroy. open_eax2. repeat step. exact HS. Qed.
    Lemma eax2_ok longer : contract (eax2_kind st mac longer) (own_eax2 oc om).
    Proof.
      split; cbn [kd_create kd_recreate kd_use kd_tag kd_destroy eax2_kind].
      - exact (eax2_nonnull oc om).
      - exact eax2_create_ok.
      - intros s. start. unfold eax2_use. open_eax2. repeat step. close_eax2 oc om s.
      - intros s. start. unfold eax2_tag. open_eax2. repeat step. close_eax2 oc om s.
      - exact eax2_destroy_ok.
    Qed.
    (** for the same or a shorter tag only if no allocation fails *)
    Lemma eax2_recreates longer : recreates lucky st oc -> longer = true \/ lucky = true -> recreates lucky (eax2_kind st mac longer) (own_eax2 oc om).
    Proof.
      intros Rc L s. start. cbn [kd_recreate eax2_kind]. unfold eax2_recreate. destruct longer.
      - step. open_eax2. step. apply eax2_close in HS. step. eapply wp_call; [exact (eax2_destroy_ok s)|cbn [app]; exact HS|]. cbn [app]. clear h HS. intros _ h HS. exact (eax2_create_ok F h HS).
      - destruct L as [L|L]; [discriminate|]. open_eax2. repeat (step; try (exfalso; congruence)). close_eax2 oc om s.
    Qed.
  End Eax2.

  (** ** kripto_mac_all, PBKDF2, scrypt *)
  Section Macs.
    Context (mac : kind) (own : nat -> hprop) (C : contract mac own).
    Lemma mac_all_ok : balanced lucky (mac_all mac).
    Proof. start. unfold mac_all. repeat step; [now apply unlucky_state|exact HS]. Qed.
    (** recreate never fails: it works in place, or no allocation does *)
    Definition steady : Prop := in_place lucky mac own \/ (recreates lucky mac own /\ lucky = true).
    Lemma steady_recreates : steady -> recreates lucky mac own.
    Proof. intros [H|[H _]]; [now apply in_place_recreates|exact H]. Qed.
    Lemma iter_ok n m : steady -> triple lucky [own m] (pbkdf2_iter mac n m) (fun r => [own r]).
    Proof.
      intros R. revert m; induction n as [|n IH]; intros m; start; cbn [pbkdf2_iter]; [step; exact HS|]. step. destruct R as [R|[R L]].
      - repeat step. exact (IH _ F _ HS).
      - step. assert (N : r <> 0) by (intros ->; apply state_null in HS; destruct HS; congruence). apply (state_some _ _ _ _ _ N) in HS. repeat step. exact (IH _ F _ HS).
    Qed.
    Lemma blocks_ok iter blocks m : recreates lucky mac own -> iter <= 1 \/ steady ->
      triple lucky [own m] (pbkdf2_blocks mac iter blocks m) (fun r => if snd r then [own (fst r)] else [unlucky lucky]).
    Proof.
      intros R I. assert (It : forall m, triple lucky [own m] (pbkdf2_iter mac (pred iter) m) (fun r => [own r])).
      { intros x. destruct I as [I|I]; [|now apply iter_ok]. replace (pred iter) with 0 by lia. start. cbn [pbkdf2_iter]. step. exact HS. }
      revert m; induction blocks as [|blocks IH]; intros m; start; cbn [pbkdf2_blocks]; [step; exact HS|].
      repeat step. call (It m) HS. destruct blocks as [|blocks]; [step; exact HS|]. repeat step; [now apply unlucky_state|]. exact (IH _ F _ HS).
    Qed.
    Lemma pbkdf2_ok iter blocks : recreates lucky mac own -> iter <= 1 \/ steady -> balanced lucky (pbkdf2_heap mac iter blocks).
    Proof.
      intros R I. start. unfold pbkdf2_heap. repeat step; try now apply unlucky_state. bring (own r0). call (blocks_ok iter blocks r0 R I) HS.
      destruct r1 as [m [|]]; cbn [fst snd app] in HS |- *; repeat step; exact HS.
    Qed.
    Lemma scrypt_ok b1 b2 : recreates lucky mac own -> balanced lucky (scrypt_heap mac b1 b2).
    Proof.
      intros R. assert (P : forall n, balanced lucky (pbkdf2_heap mac 1 n)) by (intros n; apply pbkdf2_ok; [exact R|left; lia]).
      start. unfold scrypt_heap. repeat step; [now apply unlucky_state|]. eapply wp_call with (P := []); [exact (P b1)|exact HS|]. renew1 HS.
      destruct r0; cbn [outcome app] in HS; [|repeat step; exact HS]. step. eapply wp_call with (P := []); [exact (P b2)|exact HS|]. renew1 HS.
      destruct r0; cbn [outcome app] in HS; repeat step; exact HS.
    Qed.
  End Macs.
End Kinds.
