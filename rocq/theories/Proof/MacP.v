(** MAC interface: verification, and introduction of [mac_computes]. *)
From Coq Require Import NArith Arith List Bool Lia.
From Verif Require Import Lib.Res Lib.Bytes Lib.MemLemmas Model.Mem Model.Util Model.MacApi Spec.Modes Spec.Mac Proof.UtilP.
Import ListNotations.
Local Open Scope N_scope.

Theorem verify_tag d (s s' : mc_st d) t tag : mac_tag d s (length tag) = Ok (s', t) -> length t = length tag -> bytes_ok t -> bytes_ok tag -> tag <> [] ->
  exists v, mac_verify d s tag = Ok (s', v) /\ (v <> 0 <-> tag = t).
Proof.
  intros E L Bt Btag Ne. unfold mac_verify. destruct (Nat.eqb_spec (length tag) 0) as [Z|_]; [destruct tag; [congruence|discriminate]|].
  unfold mac_tag in E. rewrite E. cbn [bind fst snd]. eexists. split; [reflexivity|].
  set (m := wr (wr (fun _ => 0) 0 t) (length tag) tag).
  assert (R1 : rd m 0 (length tag) = t).
  { unfold m. rewrite (rd_ext _ (wr (fun _ => 0) 0 t)); [now apply rd_wr'|]. intros x Hx. apply wr_out. left. lia. }
  assert (R2 : rd m (length tag) (length tag) = tag) by apply rd_wr.
  destruct (equals_spec m 0 (length tag) (length tag)) as [_ H0]; rewrite ?R1, ?R2 in *; [assumption..|]. rewrite H0. split.
  - intros H. destruct (list_eq_dec N.eq_dec tag t) as [->|N]; [reflexivity|]. exfalso. apply H. congruence.
  - intros -> H. now apply H.
Qed.

Lemma gives_intro d s (okl : list nat -> Prop) (okm : nat -> Prop) T :
  (forall parts, Forall bytes_ok parts -> okm (length (concat parts)) ->
    bytes_ok (T (concat parts)) /\ (forall n, okl [n] -> n <= length (T (concat parts)))%nat /\
    forall lens, okl lens -> tag_of d s parts lens = Ok (firstn (list_sum lens) (T (concat parts)))) ->
  mac_gives d s okl okm T.
Proof.
  intros H parts Hb Ho. destruct (H parts Hb Ho) as (BT & LT & HT). split; [exact HT|]. intros tag Btag Ne Hl.
  specialize (LT _ Hl). specialize (HT _ Hl). unfold tag_of in HT. unfold verify_of. destruct s as [s|e]; [|discriminate]. cbn [bind] in *.
  destruct (mfeed d s parts) as [s1|e]; [|discriminate]. cbn [bind mtags] in *. destruct (mac_tag d s1 (length tag)) as [[s2 t]|e] eqn:E; [|discriminate].
  cbn [bind fst snd] in HT. rewrite app_nil_r in HT. injection HT as ->. cbn [list_sum fold_right] in E. rewrite Nat.add_0_r in E.
  set (t := firstn (length tag) (T (concat parts))) in *.
  destruct (verify_tag d s1 s2 t tag E) as (v & Ev & Hv).
  - unfold t. rewrite firstn_length. lia.
  - now apply bytes_firstn.
  - exact Btag.
  - exact Ne.
  - rewrite Ev. cbn [bind snd]. exists v. split; [reflexivity|exact Hv].
Qed.
Lemma all_is d r key msg n : mac_all d r key msg n = tag_of d (mac_create d r key n) [msg] [n].
Proof.
  unfold mac_all, tag_of. destruct (mac_create d r key n) as [s|e]; [|reflexivity]. cbn [bind mfeed].
  destruct (mac_input d s msg) as [s1|e]; [|reflexivity]. cbn [bind mtags]. destruct (mac_tag d s1 n) as [q|e]; [|reflexivity]. cbn [bind]. now rewrite app_nil_r.
Qed.
Lemma computes_of d r key n (okl : list nat -> Prop) okm T : mac_gives d (mac_create d r key n) okl okm T -> okl [n] -> mac_computes d r key n okl okm T.
Proof.
  intros G Hn. split; [exact G|]. intros msg Hb Ho. rewrite all_is.
  assert (E : concat [msg] = msg) by apply app_nil_r. destruct (G [msg]) as [K _]; [constructor; [exact Hb|constructor]|now rewrite E|].
  rewrite (K [n] Hn), E. cbn [list_sum fold_right]. now rewrite Nat.add_0_r.
Qed.
