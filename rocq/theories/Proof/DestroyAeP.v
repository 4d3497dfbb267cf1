(** What EAX2 wipes of the IV. *)
From Coq Require Import NArith Arith List Bool Lia.
From Verif Require Import Lib.Res Lib.Bytes Model.BlockApi Model.StreamApi Model.MacApi Model.Modes Model.Omac Model.Ciphers Model.Eax Spec.Ae Proof.ModesP Proof.RekeyP Proof.Eax2P.
Import ListNotations.

Section Room.
  Variables (sd : stream) (md : mac).
  Local Notation st := (axst sd md).
  Local Notation D := (eax2_desc sd md).
  Definition tight (s : st) : Prop := ax_len sd md s = ax_cap sd md s /\ length (ax_iv sd md s) <= ax_cap sd md s.
  Lemma iv_write_len cap iv l v : iv_write cap iv l = Ok v -> length l <= cap /\ v = l ++ skipn (length l) iv.
  Proof. unfold iv_write. destruct (Nat.leb_spec (length l) cap); [|discriminate]. intros E. apply Ok_inj in E. now split. Qed.
  Lemma fill_iv cap iv0 m0 r key iv n mkst mkhead s : ax_fill sd md cap iv0 m0 r key iv n mkst mkhead = Ok s ->
    ax_len sd md s = n /\ ax_cap sd md s = cap /\ exists m m3 t, mac_tag md m (length iv) = Ok (m3, t) /\ length t <= cap /\ ax_iv sd md s = t ++ skipn (length t) iv0.
  Proof.
    unfold ax_fill. intros E.
    destruct (mac_input md m0 _) as [m1|e]; [|discriminate]. cbn [bind] in E.
    destruct (mac_input md m1 iv) as [m2|e]; [|discriminate]. cbn [bind] in E.
    destruct (mac_tag md m2 (length iv)) as [[m3 t]|e] eqn:Em; [|discriminate]. cbn [bind fst snd] in E.
    destruct (iv_write _ _ _) as [niv|e] eqn:Ev; [|discriminate]. cbn [bind] in E.
    destruct (mac_recreate md m3 r key n) as [m4|e]; [|discriminate]. cbn [bind] in E.
    destruct (last_byte n 2) as [b2|e]; [|discriminate]. cbn [bind] in E.
    destruct (mac_input md m4 b2) as [m5|e]; [|discriminate]. cbn [bind] in E.
    destruct (mkst _) as [q|e]; [|discriminate]. cbn [bind] in E. destruct mkhead as [h|e]; [|discriminate]. cbn [bind] in E.
    destruct (last_byte n 1) as [b1|e]; [|discriminate]. cbn [bind] in E. destruct (mac_input md h b1) as [h1|e]; [|discriminate]. cbn [bind] in E. apply Ok_inj in E. subst s.
    apply iv_write_len in Ev. destruct Ev as [Lv Ev]. cbn [ax_len ax_cap ax_iv]. split; [reflexivity|]. split; [reflexivity|]. exists m2, m3, t. now repeat split.
  Qed.
  Lemma create_tight r key iv n s : ae_create D r key iv n = Ok s -> tight s.
  Proof.
    unfold ae_create. intros E. apply assert_inv in E. destruct E as [_ E]. cbn [ae_mk eax2_desc] in E. unfold eax2_create in E. destruct (mac_create md _ _ n) as [m0|e]; [|discriminate]. cbn [bind] in E.
    apply fill_iv in E. destruct E as (E1 & E2 & m & m3 & t & _ & L & E3). unfold tight. rewrite E1, E2, E3, skipn_nil, app_nil_r. now split.
  Qed.
  Lemma tag_tight (s s1 : st) n t : ax_tag sd md s n = Ok (s1, t) -> tight s -> tight s1.
  Proof.
    unfold ax_tag. intros E [F1 F2]. destruct (mac_tag md (ax_mac sd md s) n) as [[q u]|e]; [|discriminate]. cbn [bind fst snd] in E.
    destruct (iv_read _ _ _) as [v|e]; [|discriminate]. cbn [bind] in E. destruct (mac_tag md (ax_header sd md s) n) as [[p w]|e]; [|discriminate]. cbn [bind fst snd] in E.
    destruct (iv_write _ _ _) as [x|e] eqn:Ev; [|discriminate]. cbn [bind] in E. apply Ok_inj in E. injection E as <- _.
    apply iv_write_len in Ev. destruct Ev as [Lv ->]. unfold tight. cbn [ax_len ax_cap ax_iv]. split; [exact F1|]. rewrite app_length, skipn_length. lia.
  Qed.
  Lemma used_tight (s s' : ae_st D) : ae_used D s s' -> tight s -> tight s'.
  Proof.
    intros H. induction H as [s|s m src dst len s1 m1 s2 E H IH|s m src dst len s1 m1 s2 E H IH|s l s1 s2 E H IH|s n t s1 s2 E H IH|s tag v s1 s2 E H IH]; intros I; [exact I| | | | |]; apply IH; clear IH H.
    - unfold ae_encrypt in E. apply assert_inv in E. destruct E as [_ E]. cbn [ae_enc eax2_desc] in E. unfold ax_encrypt in E.
      destruct (sm_enc _ _ m src dst len) as [[q m2]|e]; [|discriminate]. cbn [bind fst snd] in E. destruct (mac_input _ _ _) as [h|e]; [|discriminate]. cbn [bind] in E. apply Ok_inj in E. injection E as <- _. exact I.
    - unfold ae_decrypt in E. apply assert_inv in E. destruct E as [_ E]. cbn [ae_dec eax2_desc] in E. unfold ax_decrypt in E.
      destruct (mac_input _ _ _) as [h|e]; [|discriminate]. cbn [bind] in E. destruct (sm_dec _ _ m src dst len) as [[q m2]|e]; [|discriminate]. cbn [bind fst snd] in E. apply Ok_inj in E. injection E as <- _. exact I.
    - unfold ae_header in E. cbn [ae_hdr eax2_desc] in E. unfold ax_head in E. destruct (mac_input _ _ _) as [h|e]; [|discriminate]. cbn [bind] in E. apply Ok_inj in E. subst s1. exact I.
    - exact (tag_tight s s1 n t E I).
    - unfold ae_verify in E. destruct (length tag =? 0); [discriminate|]. destruct (ae_out D s (length tag)) as [[q u]|e] eqn:E1; [|discriminate]. cbn [bind fst snd] in E. apply Ok_inj in E. injection E as <- _.
      exact (tag_tight s q _ u E1 I).
  Qed.
  Theorem eax2_no_room r key iv n s0 s : ae_create D r key iv n = Ok s0 -> ae_used D s0 s -> ax_cap sd md s = ax_len sd md s /\ length (ax_iv sd md s) <= ax_len sd md s.
  Proof. intros E U. destruct (used_tight s0 s U (create_tight _ _ _ _ _ E)) as [T1 T2]. now rewrite T1. Qed.

  (** recreate, when the IV is not longer than the new tag *)
  Theorem eax2_recreated s r key iv n s1 : tight s -> length iv <= n -> (forall m q t, mac_tag md m (length iv) = Ok (q, t) -> length t = length iv) ->
    ae_recreate D s r key iv n = Ok s1 -> ax_len sd md s1 = n /\ Forall (eq 0%N) (skipn n (ax_iv sd md s1)).
  Proof.
    intros [T1 T2] Hn Ht. unfold ae_recreate. intros E. apply assert_inv in E. destruct E as [_ E]. cbn [ae_remk eax2_desc] in E. unfold eax2_recreate in E.
    destruct (Nat.ltb_spec (ax_len sd md s) n) as [L|L].
    - unfold eax2_create in E. destruct (mac_create md _ _ n) as [m0|e]; [|discriminate]. cbn [bind] in E.
      apply fill_iv in E. destruct E as (E1 & E2 & m & m3 & t & _ & Lt & E3). split; [exact E1|]. rewrite E3, skipn_nil, app_nil_r, skipn_all2 by lia. constructor.
    - destruct (mac_recreate md _ _ _ n) as [m0|e]; [|discriminate]. cbn [bind] in E.
      apply fill_iv in E. destruct E as (E1 & E2 & m & m3 & t & Em & Lt & E3). split; [exact E1|]. apply Ht in Em. rewrite E3.
      apply Forall_forall. intros x Hx.
      rewrite skipn_app, (skipn_all2 t) in Hx by lia. cbn [app] in Hx. rewrite skipn_app in Hx.
      set (v := ax_iv sd md s) in *. rewrite skipn_app in Hx. apply in_app_or in Hx. destruct Hx as [Hx|Hx].
      + rewrite skipn_all2 in Hx; [destruct Hx|]. rewrite skipn_length, firstn_length. lia.
      + apply (fun H => proj1 (in_map_iff (fun _ => 0%N) (skipn n v) x) H) in Hx || idtac.
        assert (Hz : In x (map (fun _ : N => 0%N) (skipn n v))).
        { revert Hx. generalize (map (fun _ : N => 0%N) (skipn n v)). intros l Hx.
          match type of Hx with In x (skipn ?a (skipn ?b l)) =>
            rewrite <- (firstn_skipn b l), <- (firstn_skipn a (skipn b l)); apply in_or_app; right; apply in_or_app; now right end. }
        apply in_map_iff in Hz. destruct Hz as (y & <- & _). reflexivity.
  Qed.
End Room.

(** An IV longer than the new tag: the bytes of its MAC behind the tag stay when the object is destroyed. *)
Local Notation tea2 := (eax2_desc (ctr_stream tea_desc) (omac_desc tea_desc)).
Definition left_behind (key iv : list N) (n0 n : nat) : list N :=
  match ae_create tea2 0 key iv n0 with
  | Ok s => match ae_recreate tea2 s 0 key iv n with Ok s1 => skipn (ax_len _ _ s1) (ax_iv _ _ s1) | Err _ => [] end
  | Err _ => []
  end.
Lemma eax2_short_tag : existsb (fun b => negb (b =? 0)%N) (left_behind [1; 2; 3; 4]%N [1; 2; 3; 4; 5; 6; 7; 8]%N 8 4) = true.
Proof. vm_compute. reflexivity. Qed.
Lemma left_ex key iv n0 n : existsb (fun b => negb (b =? 0)%N) (left_behind key iv n0 n) = true ->
  exists s0 s1, ae_create tea2 0 key iv n0 = Ok s0 /\ ae_recreate tea2 s0 0 key iv n = Ok s1 /\ ~ Forall (eq 0%N) (skipn (ax_len _ _ s1) (ax_iv _ _ s1)).
Proof.
  unfold left_behind. intros H. destruct (ae_create tea2 0 key iv n0) as [s0|e]; [|discriminate H].
  destruct (ae_recreate tea2 s0 0 key iv n) as [s1|e] eqn:E; [|discriminate H].
  exists s0, s1. split; [reflexivity|]. split; [exact E|]. intros F. apply existsb_exists in H. destruct H as (x & Hx & Hz).
  rewrite Forall_forall in F. rewrite <- (F x Hx) in Hz. discriminate Hz.
Qed.
Lemma eax2_left_refuted : exists s0 s1, ae_create tea2 0 [1; 2; 3; 4]%N [1; 2; 3; 4; 5; 6; 7; 8]%N 8 = Ok s0 /\
  ae_recreate tea2 s0 0 [1; 2; 3; 4]%N [1; 2; 3; 4; 5; 6; 7; 8]%N 4 = Ok s1 /\ ~ Forall (eq 0%N) (skipn (ax_len _ _ s1) (ax_iv _ _ s1)).
Proof. exact (left_ex _ _ _ _ eax2_short_tag). Qed.
