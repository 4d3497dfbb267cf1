(** EAX2 over any stream cipher and any MAC. *)
From Coq Require Import NArith Arith List Bool Lia.
From Verif Require Import Lib.Res Lib.Bytes Lib.XorBytes Lib.MemLemmas Lib.BlockLemmas Model.Mem Model.BlockApi Model.Keccak Model.StreamApi Model.MacApi Model.Eax Spec.Modes Spec.Mac Spec.Hmac Spec.Ae
  Proof.MacP Proof.RekeyP Proof.HmacP Proof.AeP Proof.EaxP Proof.StreamsP.
Import ListNotations.
Local Open Scope nat_scope.

Lemma zeros_be n : be_bytes n 0 = repeat 0%N n.
Proof. unfold be_bytes. induction n as [|n IH]; [reflexivity|]. cbn [le_bytes rev]. rewrite N.div_small by reflexivity. rewrite IH. change (0 mod 256)%N with 0%N. symmetry. apply repeat_cons. Qed.
Lemma tagged_be n v : 0 < n -> (v < 256)%N -> tagged n v = be_bytes n v.
Proof.
  intros H Hv. unfold tagged. destruct n as [|n]; [lia|]. rewrite Nat.sub_succ, Nat.sub_0_r. unfold be_bytes. cbn [le_bytes rev]. rewrite N.div_small by exact Hv.
  rewrite (N.mod_small v) by exact Hv. f_equal. symmetry. apply zeros_be.
Qed.

Section Enc.
  Variables (sd : stream) (md : mac) (mk : N -> list N -> list N -> nat -> res (axst sd md)) (remk : axst sd md -> N -> list N -> list N -> nat -> res (axst sd md)) (k : nat) (mxk mxi : N) (mxt : nat).
  Lemma ax_encrypts (s0 : axst sd md) : encrypts_with (ax_desc sd md k mk remk mxk mxi mxt) s0 sd (ax_stream sd md s0).
  Proof.
    split.
    - intros hdr pt s ct H. destruct (enc_inv sd md k s0 hdr pt s ct H) as (cps & hps & Ec & Eh & Bh & S & _). eexists. exact S.
    - intros hdr ct s pt H. destruct (dec_inv sd md k s0 hdr ct s pt H) as (cps & hps & Ec & Eh & Bh & S & _). eexists. exact S.
  Qed.
End Enc.

Lemma mac_used_trans d s1 s2 s3 : mac_used d s1 s2 -> mac_used d s2 s3 -> mac_used d s1 s3.
Proof. intros H. induction H; intros H3; [exact H3|eapply mu_input; eauto|eapply mu_tag; eauto]. Qed.

Section Eax2.
  Variables (sd : stream) (md : mac) (r : N) (key iv : list N) (n : nat) (okn okm : nat -> Prop) (ok0 okl : list nat -> Prop) (T0 T : list N -> list N) (okt : nat -> Prop).
  Let mkey := eax2_mac_key sd key.
  Let skey := eax2_stream_key sd key.
  Hypothesis Biv : bytes_ok iv.
  Hypothesis Hn : 0 < n.
  Hypothesis Liv : length iv <= n.
  Hypothesis O0 : ok0 [length iv].
  Hypothesis One : exists t, okl [t].
  Hypothesis Om : forall l, l <= n + length iv -> okm l.
  Hypothesis D0 : digests (length iv) okm T0.
  Hypothesis Ht : forall t, okt t -> okl [t] /\ t <= length iv /\ digests t okm T.
  Let N0 := firstn (length iv) (eax2_nonce n T0 iv).
  Local Notation D := (eax2_desc sd md).
  Local Notation eax2_good s0 mkst := (eax2_object n T0 T D sd s0 mkst iv okn okm okt).
  Lemma N0_ok : bytes_ok N0 /\ length N0 = length iv.
  Proof.
    unfold N0, eax2_nonce. destruct (D0 (be_bytes n 0 ++ iv)) as [B L].
    - apply bytes_app. split; [apply bytes_be_bytes|exact Biv].
    - apply Om. rewrite app_length, length_be_bytes. lia.
    - split; [now apply bytes_firstn|]. rewrite firstn_length. lia.
  Qed.
  Lemma eax2_filled cap iv0 m0 mkst mkhead : length iv <= cap -> mac_gives md (Ok m0) ok0 okm T0 -> (forall m, mac_used md m0 m -> mac_gives md (mac_recreate md m r mkey n) okl okm T) ->
    mac_gives md mkhead okl okm T -> (forall x, bytes_ok x -> length x = length iv -> exists st, mkst x = Ok st /\ stream_works sd okn st) ->
    exists s0, ax_fill sd md cap iv0 m0 r mkey iv n mkst mkhead = Ok s0 /\ eax2_good s0 mkst.
  Proof.
    intros Lc G0 GR GH Hst. destruct One as (n1 & On). destruct N0_ok as [BN LN]. destruct (Hst N0 BN LN) as (st & Est & Wst).
    destruct (fill_ok sd md (mac_used md m0) cap iv0 m0 r mkey iv n mkst mkhead ok0 okl okm T0 T n1 st) as (s0 & E & E1 & Ecap & Eiv & Gc & Gh); try assumption.
    - intros s x s' U Ex. apply (mac_used_trans md _ s); [exact U|]. eapply mu_input; [exact Ex|constructor].
    - intros s k s' t U Ex. apply (mac_used_trans md _ s); [exact U|]. eapply mu_tag; [exact Ex|constructor].
    - constructor.
    - rewrite <- zeros_be. exact Est.
    - exists s0. split; [exact E|]. split.
      + exists st. split; [exact Est|]. rewrite <- E1. exact (ax_encrypts sd md (eax2_create sd md) (eax2_recreate sd md) (sm_multof sd) _ _ _ s0).
      + rewrite <- zeros_be in Eiv. fold (eax2_nonce n T0 iv) in Eiv. fold N0 in Eiv.
        assert (Fiv : forall t, t <= length iv -> firstn t (ax_iv _ _ s0) = firstn t (eax2_nonce n T0 iv)).
        { intros t Hl. rewrite Eiv, firstn_app, LN. unfold N0. rewrite firstn_firstn, Nat.min_l by exact Hl. replace (t - length iv) with 0 by lia. cbn [firstn]. apply app_nil_r. }
        assert (Dv : forall v t, okt t -> (v < 256)%N -> digests t (fun l => okm (n + l)) (fun m => T (tagged n v ++ m))).
        { intros v t Hl Hv m Bm Ol. destruct (Ht t Hl) as (_ & _ & Dt). rewrite tagged_be by assumption. apply Dt.
          - apply bytes_app. split; [apply bytes_be_bytes|exact Bm].
          - rewrite app_length, length_be_bytes. exact Ol. }
        rewrite <- E1 in Wst.
        pose proof (ax_works sd md (sm_multof sd) s0 okl okn (fun l => okm (n + l)) (fun l => okm (n + l)) _ _ Wst (fun x H => H) Gc Gh okt) as AW.
        eapply ae_works_ext; [apply AW|auto|auto|auto|].
        * intros t Hl. destruct (Ht t Hl) as (L1 & L2 & _). split; [exact L1|]. split; [rewrite Eiv, app_length, LN; lia|]. split; [rewrite Ecap; lia|]. split; apply Dv; try assumption; reflexivity.
        * exists n1. exact On.
        * intros t Hl. destruct (Ht t Hl) as (_ & L2 & _). rewrite (Fiv t L2).
          replace (firstn t (eax2_nonce n T0 iv)) with (firstn t N0) by (unfold N0; rewrite firstn_firstn, Nat.min_l by exact L2; reflexivity). now apply bytes_firstn.
        * intros hdr ct t Hl. destruct (Ht t Hl) as (_ & L2 & _). unfold ax_value, eax2_tag. rewrite (Fiv t L2), !xor_firstn, !tagged_be by (assumption || reflexivity). f_equal. apply xor_comm.
  Qed.
  Hypothesis A : ae_args_ok D key iv n = true.
  Theorem eax2_create_ok : mac_ready md r mkey n ok0 okl okm T0 T -> stream_ready sd r skey (length iv) okn ->
    exists s0, ae_create D r key iv n = Ok s0 /\ eax2_good s0 (sm_create sd r skey).
  Proof.
    intros (G0 & G & GR) Hs. destruct (gives_ok md _ _ _ _ _ G0 O0) as (m0 & Em); [apply Om; lia|]. pose proof G0 as G1. rewrite Em in G1.
    destruct (eax2_filled n [] m0 (sm_create sd r skey) (mac_create md r mkey n) Liv G1) as (s0 & E & Gd).
    - intros m U. exact (GR m0 m Em U).
    - exact G.
    - exact Hs.
    - exists s0. split; [|exact Gd]. unfold ae_create. rewrite assert_true by exact A. cbn [ae_mk eax2_desc]. unfold eax2_create. fold mkey. rewrite Em. cbn [bind]. rewrite Em in E. exact E.
  Qed.
  Theorem eax2_recreate_ok (s : axst sd md) : ax_len sd md s <= ax_cap sd md s -> mac_always md r mkey n ok0 okl okm T0 T -> stream_always sd r skey (length iv) okn ->
    exists s0, ae_recreate D s r key iv n = Ok s0 /\ eax2_good s0 (if ax_len sd md s <? n then sm_create sd r skey else sm_recreate sd (ax_stream sd md s) r skey).
  Proof.
    intros Hc (G0 & G & GA) [Hs Hr]. unfold ae_recreate. rewrite assert_true by exact A. cbn [ae_remk eax2_desc]. unfold eax2_recreate. fold mkey skey. destruct (Nat.ltb_spec (ax_len sd md s) n) as [L|L].
    - destruct eax2_create_ok as (s0 & E & Gd); [|exact Hs|].
      + split; [exact G0|]. split; [exact G|]. intros m0 m _ _. apply GA.
      + exists s0. split; [|exact Gd]. unfold ae_create in E. rewrite assert_true in E by exact A. exact E.
    - destruct (GA (ax_mac sd md s)) as [G1 _]. destruct (gives_ok md _ _ _ _ _ G1 O0) as (m0 & Em); [apply Om; lia|]. rewrite Em in G1 |- *. cbn [bind].
      destruct (eax2_filled (ax_cap sd md s) (firstn n (ax_iv sd md s) ++ map (fun _ => 0%N) (skipn n (ax_iv sd md s))) m0 (sm_recreate sd (ax_stream sd md s) r skey) (mac_recreate md (ax_header sd md s) r mkey n)) as (s0 & E & Gd).
      + lia.
      + exact G1.
      + intros m _. apply GA.
      + apply GA.
      + exact (Hr _).
      + exists s0. split; [exact E|exact Gd].
  Qed.
End Eax2.

(** ** the room for the IV *)
Section Room.
  Variables (sd : stream) (md : mac).
  Local Notation st := (axst sd md).
  Definition fits_iv (s : st) : Prop := ax_len sd md s <= ax_cap sd md s.
  Lemma fill_fits cap iv0 m0 r key iv n mkst mkhead s : ax_fill sd md cap iv0 m0 r key iv n mkst mkhead = Ok s -> ax_len sd md s = n /\ ax_cap sd md s = cap.
  Proof.
    unfold ax_fill. intros E.
    destruct (mac_input md m0 _) as [m1|e]; [|discriminate]. cbn [bind] in E.
    destruct (mac_input md m1 iv) as [m2|e]; [|discriminate]. cbn [bind] in E.
    destruct (mac_tag md m2 (length iv)) as [[m3 t]|e]; [|discriminate]. cbn [bind fst snd] in E.
    destruct (iv_write _ _ _) as [niv|e]; [|discriminate]. cbn [bind] in E.
    destruct (mac_recreate md m3 r key n) as [m4|e]; [|discriminate]. cbn [bind] in E.
    destruct (last_byte n 2) as [b2|e]; [|discriminate]. cbn [bind] in E.
    destruct (mac_input md m4 b2) as [m5|e]; [|discriminate]. cbn [bind] in E.
    destruct (mkst _) as [q|e]; [|discriminate]. cbn [bind] in E. destruct mkhead as [h|e]; [|discriminate]. cbn [bind] in E.
    destruct (last_byte n 1) as [b1|e]; [|discriminate]. cbn [bind] in E. destruct (mac_input md h b1) as [h1|e]; [|discriminate]. cbn [bind] in E. apply Ok_inj in E. subst s. split; reflexivity.
  Qed.
  Lemma create_fits r key iv n s : ae_create (eax2_desc sd md) r key iv n = Ok s -> fits_iv s.
  Proof.
    unfold ae_create. intros E. apply assert_inv in E. destruct E as [_ E]. cbn [ae_mk eax2_desc] in E. unfold eax2_create in E. destruct (mac_create md _ _ n) as [m0|e]; [|discriminate]. cbn [bind] in E.
    apply fill_fits in E. unfold fits_iv. lia.
  Qed.
  Lemma tag_fits (s s1 : st) n t : ax_tag sd md s n = Ok (s1, t) -> fits_iv s -> fits_iv s1.
  Proof.
    unfold ax_tag. intros E F. destruct (mac_tag md (ax_mac sd md s) n) as [[q u]|e]; [|discriminate]. cbn [bind fst snd] in E.
    destruct (iv_read _ _ _) as [v|e]; [|discriminate]. cbn [bind] in E. destruct (mac_tag md (ax_header sd md s) n) as [[p w]|e]; [|discriminate]. cbn [bind fst snd] in E.
    destruct (iv_write _ _ _) as [x|e]; [|discriminate]. cbn [bind] in E. apply Ok_inj in E. injection E as <- _. exact F.
  Qed.
  Lemma used_fits (s s' : ae_st (eax2_desc sd md)) : ae_used (eax2_desc sd md) s s' -> fits_iv s -> fits_iv s'.
  Proof.
    intros H. induction H as [s|s m src dst len s1 m1 s2 E H IH|s m src dst len s1 m1 s2 E H IH|s l s1 s2 E H IH|s n t s1 s2 E H IH|s tag v s1 s2 E H IH]; intros I; [exact I| | | | |]; apply IH; clear IH H.
    - unfold ae_encrypt in E. apply assert_inv in E. destruct E as [_ E]. cbn [ae_enc eax2_desc] in E. unfold ax_encrypt in E.
      destruct (sm_enc _ _ m src dst len) as [[q m2]|e]; [|discriminate]. cbn [bind fst snd] in E. destruct (mac_input _ _ _) as [h|e]; [|discriminate]. cbn [bind] in E. apply Ok_inj in E. injection E as <- _. exact I.
    - unfold ae_decrypt in E. apply assert_inv in E. destruct E as [_ E]. cbn [ae_dec eax2_desc] in E. unfold ax_decrypt in E.
      destruct (mac_input _ _ _) as [h|e]; [|discriminate]. cbn [bind] in E. destruct (sm_dec _ _ m src dst len) as [[q m2]|e]; [|discriminate]. cbn [bind fst snd] in E. apply Ok_inj in E. injection E as <- _. exact I.
    - unfold ae_header in E. cbn [ae_hdr eax2_desc] in E. unfold ax_head in E. destruct (mac_input _ _ _) as [h|e]; [|discriminate]. cbn [bind] in E. apply Ok_inj in E. subst s1. exact I.
    - exact (tag_fits s s1 n t E I).
    - unfold ae_verify in E. destruct (length tag =? 0); [discriminate|]. destruct (ae_out (eax2_desc sd md) s (length tag)) as [[q u]|e] eqn:E1; [|discriminate]. cbn [bind fst snd] in E. apply Ok_inj in E. injection E as <- _.
      exact (tag_fits s q _ u E1 I).
  Qed.
  (** where an IV longer than the tag goes *)
  Theorem eax2_long_iv r key iv n s : n < length iv -> (forall m q t, mac_tag md m (length iv) = Ok (q, t) -> length t = length iv) -> ae_create (eax2_desc sd md) r key iv n = Ok s -> False.
  Proof.
    intros L Ht E. unfold ae_create in E. apply assert_inv in E. destruct E as [_ E]. cbn [ae_mk eax2_desc] in E. unfold eax2_create in E. destruct (mac_create md _ _ n) as [m0|e]; [|discriminate]. cbn [bind] in E. unfold ax_fill in E.
    destruct (mac_input md m0 _) as [m1|e]; [|discriminate]. cbn [bind] in E.
    destruct (mac_input md m1 iv) as [m2|e]; [|discriminate]. cbn [bind] in E.
    destruct (mac_tag md m2 (length iv)) as [[m3 t]|e] eqn:Em; [|discriminate]. cbn [bind fst snd] in E. apply Ht in Em. unfold iv_write in E. rewrite Em in E.
    rewrite (proj2 (Nat.leb_gt _ _) L) in E. discriminate.
  Qed.
End Room.

(** ** the key *)
Theorem eax2_splits sd key : (N.of_nat (length key) < 2 ^ 32 - 1)%N -> splits_key (sm_maxkey sd) key (eax2_mac_key sd key) (eax2_stream_key sd key).
Proof.
  intros H. unfold splits_key, eax2_mac_key, eax2_stream_key, eax2_mac_len, eax2_stream_len. set (n := N.of_nat (length key)) in *. change (2 ^ 32)%N with 4294967296%N in *.
  rewrite (N.mod_small (n + 1)) by lia. set (h := ((n + 1) / 2)%N). assert (Hh : (h <= n)%N \/ n = 0%N).
  { unfold h. destruct (N.eq_dec n 0) as [|Hn]; [now right|left]. apply N.lt_succ_r. apply N.div_lt_upper_bound; lia. }
  assert (H0 : n = 0%N -> h = 0%N) by (intros ->; reflexivity).
  assert (M : (if (sm_maxkey sd <? h)%N then sm_maxkey sd else h) = N.min h (sm_maxkey sd)).
  { destruct (N.ltb_spec (sm_maxkey sd) h); [rewrite N.min_r|rewrite N.min_l]; lia. }
  rewrite M. clear M. set (k := N.min h (sm_maxkey sd)). assert (Hk : (k <= n)%N) by (unfold k; lia).
  assert (E : ((n + (4294967296 - k)) mod 4294967296 = n - k)%N).
  { replace (n + (4294967296 - k))%N with (n - k + 1 * 4294967296)%N by lia. rewrite N.mod_add by discriminate. apply N.mod_small. lia. }
  rewrite E. assert (L : N.to_nat k = length (skipn (N.to_nat (n - k)) key)) by (rewrite skipn_length; unfold n; lia).
  rewrite L, firstn_all. split; [symmetry; apply firstn_skipn|]. rewrite <- L. lia.
Qed.
Lemma eax2_args sd md key iv n : 0 < length key -> (N.of_nat (length key) <= (sm_maxkey sd + mc_maxkey md) mod 2 ^ 32)%N -> (N.of_nat (length iv) <= sm_maxiv sd)%N -> n <= mc_maxtag md -> ae_args_ok (eax2_desc sd md) key iv n = true.
Proof. intros H1 H2 H3 H4. unfold ae_args_ok. cbn [ae_maxkey ae_maxiv ae_maxtag eax2_desc]. rewrite (proj2 (Nat.ltb_lt _ _) H1), (proj2 (N.leb_le _ _) H2), (proj2 (N.leb_le _ _) H3). now apply Nat.leb_le. Qed.

Lemma lengths_ok c p md x : let take d := ae_multof (eax2_desc d md) in
  (x mod take (ecb_stream c) = 0 <-> x mod bc_bs c = 0) /\ (x mod take (cbc_stream c) = 0 <-> x mod bc_bs c = 0) /\
  Forall (fun d => x mod take d = 0) [cfb_stream c; ofb_stream c; ctr_stream c; chacha_stream; salsa20_stream; rc4_stream; keccak_stream hash_keccak800 49; keccak_stream hash_keccak1600 99; skein_stream p] /\
  x mod ae_multof (eax_desc c) = 0.
Proof. cbn [ae_multof eax2_desc eax_desc]. split; [reflexivity|]. split; [reflexivity|]. split; [|apply Nat.mod_1_r]. repeat apply Forall_cons; try apply Nat.mod_1_r. apply Forall_nil. Qed.
