(** EAX and EAX2: what the composition of a stream cipher and a MAC does. *)
From Coq Require Import NArith Arith List Bool Lia.
From Verif Require Import Lib.Res Lib.Bytes Lib.XorBytes Lib.MemLemmas Lib.BlockLemmas Model.Mem Model.Util Model.StreamApi Model.MacApi Model.Eax Spec.Modes Spec.Mac Spec.Hmac Spec.Ae
  Proof.UtilP Proof.MacP Proof.RekeyP Proof.HmacP.
Import ListNotations.
Local Open Scope nat_scope.

Lemma bytes_concat (l : list (list N)) : bytes_ok (concat l) -> Forall bytes_ok l.
Proof. induction l as [|x l IH]; intros H; [constructor|]. cbn [concat] in H. apply bytes_app in H. destruct H. constructor; [assumption|now apply IH]. Qed.
Lemma session_snoc {S} (op : S -> mem -> nat -> nat -> nat -> res (S * mem)) s inp s1 out m src dst len s2 m' :
  session op s inp s1 out -> buffers_ok src dst len -> bytes_ok (rd m src len) -> op s1 m src dst len = Ok (s2, m') ->
  session op s (inp ++ rd m src len) s2 (out ++ rd m' dst len).
Proof.
  intros H Hb Hi E. revert Hb Hi E. induction H as [s|s m0 src0 dst0 len0 s1 m1 inp s3 out Hb0 Hi0 E0 H IH]; intros Hb Hi E.
  - cbn [app]. pose proof (ses_call op s m src dst len s2 m' [] s2 [] Hb Hi E (ses_nil op s2)) as P. now rewrite !app_nil_r in P.
  - rewrite <- !app_assoc. apply (ses_call op s m0 src0 dst0 len0 s1 m1); try assumption. now apply IH.
Qed.

(** ** MAC objects *)
Section Gives.
  Variable d : mac.
  Lemma tag_cons s x s1 parts lens : mac_input d s x = Ok s1 -> tag_of d (Ok s) (x :: parts) lens = tag_of d (Ok s1) parts lens.
  Proof. intros E. unfold tag_of. cbn [bind mfeed]. now rewrite E. Qed.
  Lemma gives_next s x s1 okl okm T : mac_gives d (Ok s) okl okm T -> bytes_ok x -> mac_input d s x = Ok s1 ->
    mac_gives d (Ok s1) okl (fun l => okm (length x + l)) (fun m => T (x ++ m)).
  Proof.
    intros G Bx E parts Hb Ho. destruct (G (x :: parts)) as [G1 G2]; [now constructor|cbn [concat]; now rewrite app_length|]. cbn [concat] in *. split.
    - intros lens Hl. rewrite <- (tag_cons s x s1 parts lens E). now apply G1.
    - intros tag Bt Ne Hl. destruct (G2 tag Bt Ne Hl) as (v & Ev & Hv). exists v. split; [|exact Hv]. unfold verify_of in *. cbn [bind mfeed] in Ev. now rewrite E in Ev.
  Qed.
  Lemma gives_feed s okl okm T parts n : mac_gives d (Ok s) okl okm T -> okl [n] -> Forall bytes_ok parts -> okm (length (concat parts)) ->
    exists s1, mfeed d s parts = Ok s1 /\ exists s2, mac_tag d s1 n = Ok (s2, firstn n (T (concat parts))).
  Proof.
    intros G Hl Hb Ho. destruct (G parts Hb Ho) as [G1 _]. specialize (G1 [n] Hl). unfold tag_of in G1. cbn [bind] in G1.
    destruct (mfeed d s parts) as [s1|e]; [|discriminate]. exists s1. split; [reflexivity|]. cbn [bind mtags] in G1.
    destruct (mac_tag d s1 n) as [[s2 t]|e]; [|discriminate]. cbn [bind fst snd] in G1. rewrite app_nil_r in G1. apply Ok_inj in G1. exists s2. rewrite G1. cbn [list_sum fold_right]. now rewrite Nat.add_0_r.
  Qed.
  Lemma gives_input s okl okm T x n : mac_gives d (Ok s) okl okm T -> okl [n] -> bytes_ok x -> okm (length x) -> exists s1, mac_input d s x = Ok s1.
  Proof.
    intros G Hl Bx Ho. destruct (gives_feed s okl okm T [x] n G Hl) as (s1 & E & _); [now constructor|cbn [concat]; now rewrite app_nil_r|].
    cbn [mfeed] in E. destruct (mac_input d s x) as [s2|e]; [|discriminate]. now exists s2.
  Qed.
  Lemma gives_ok s okl okm T n : mac_gives d s okl okm T -> okl [n] -> okm 0 -> exists s1, s = Ok s1.
  Proof.
    intros G Hl Ho. destruct (G []) as [G1 _]; [constructor|exact Ho|]. specialize (G1 [n] Hl). destruct s as [s1|e]; [now exists s1|discriminate].
  Qed.
  Lemma gives_weaken s (okl okl' : list nat -> Prop) (okm okm' : nat -> Prop) T : mac_gives d s okl okm T -> (forall l, okl' l -> okl l) -> (forall l, okm' l -> okm l) -> mac_gives d s okl' okm' T.
  Proof.
    intros G Hl Hm parts Hb Ho. destruct (G parts Hb (Hm _ Ho)) as [G1 G2]. split; [intros lens L; apply G1; auto|intros tag Bt Ne L; apply G2; auto].
  Qed.
  Lemma mfeed_app a : forall b s, mfeed d s (a ++ b) = let* s := mfeed d s a in mfeed d s b.
  Proof. induction a as [|x a IH]; intros b s; [reflexivity|]. cbn [app mfeed]. destruct (mac_input d s x) as [s1|e]; [apply IH|reflexivity]. Qed.
End Gives.

Lemma session_length {S} (op : S -> mem -> nat -> nat -> nat -> res (S * mem)) s inp s1 out : session op s inp s1 out -> length out = length inp.
Proof. induction 1 as [s|s m src dst len s1 m1 inp s2 out Hb Hi E H IH]; [reflexivity|]. now rewrite !app_length, !length_rd, IH. Qed.

(** verification *)
Theorem ae_verify_tag d (s s' : ae_st d) t tag : ae_tag d s (length tag) = Ok (s', t) -> length t = length tag -> bytes_ok t -> bytes_ok tag -> tag <> [] ->
  exists v, ae_verify d s tag = Ok (s', v) /\ (v <> 0%N <-> tag = t).
Proof.
  intros E L Bt Btag Ne. unfold ae_verify. destruct (Nat.eqb_spec (length tag) 0) as [Z|_]; [destruct tag; [congruence|discriminate]|].
  unfold ae_tag in E. rewrite E. cbn [bind fst snd]. eexists. split; [reflexivity|].
  set (m := wr (wr (fun _ => 0%N) 0 t) (length tag) tag).
  assert (R1 : rd m 0 (length tag) = t).
  { unfold m. rewrite (rd_ext _ (wr (fun _ => 0%N) 0 t)); [now apply rd_wr'|]. intros x Hx. apply wr_out. left. lia. }
  assert (R2 : rd m (length tag) (length tag) = tag) by apply rd_wr.
  destruct (equals_spec m 0 (length tag) (length tag)) as [_ H0]; rewrite ?R1, ?R2 in *; [assumption..|]. rewrite H0. split.
  - intros H. destruct (list_eq_dec N.eq_dec tag t) as [->|N]; [reflexivity|]. exfalso. apply H. congruence.
  - intros -> H. now apply H.
Qed.

Section Ops.
  Variables (sd : stream) (md : mac).
  Local Notation axst := (axst sd md).
  Local Notation head := (ax_head sd md).
  Definition enc_op k (s : axst) (m : mem) (a b n : nat) := assert_ (n mod k =? 0) (ax_encrypt sd md s m a b n).
  Definition dec_op k (s : axst) (m : mem) (a b n : nat) := assert_ (n mod k =? 0) (ax_decrypt sd md s m a b n).
  Definition kept (s s' : axst) : Prop := ax_iv sd md s' = ax_iv sd md s /\ ax_cap sd md s' = ax_cap sd md s.
  Lemma head_inv s l s1 : head s l = Ok s1 -> mac_input md (ax_header sd md s) l = Ok (ax_header sd md s1) /\ ax_stream sd md s1 = ax_stream sd md s /\ ax_mac sd md s1 = ax_mac sd md s /\ kept s s1.
  Proof.
    unfold ax_head. destruct (mac_input md (ax_header sd md s) l) as [h|e]; [|discriminate]. cbn [bind]. intros E. apply Ok_inj in E. subst s1. repeat split.
  Qed.
  Lemma enc_inv k s hdr inp s' out : ae_session (enc_op k) head s hdr inp s' out -> exists cps hps,
    concat cps = out /\ concat hps = hdr /\ Forall bytes_ok hps /\ session (sm_enc sd) (ax_stream sd md s) inp (ax_stream sd md s') out /\
    mfeed md (ax_mac sd md s) cps = Ok (ax_mac sd md s') /\ mfeed md (ax_header sd md s) hps = Ok (ax_header sd md s') /\ kept s s'.
  Proof.
    intros H. induction H as [s|s m src dst len s1 m1 hdr inp s2 out Hb Hi E H IH|s l s1 hdr inp s2 out Bl E H IH].
    - exists [], []. repeat split; constructor.
    - destruct IH as (cps & hps & <- & <- & Bh & S & Fm & Fh & K1 & K2). unfold enc_op in E. apply assert_inv in E. destruct E as [_ E]. unfold ax_encrypt in E.
      destruct (sm_enc sd (ax_stream sd md s) m src dst len) as [[st m2]|e] eqn:Es; [|discriminate]. cbn [bind fst snd] in E.
      destruct (mac_input md (ax_mac sd md s) (rd m2 dst len)) as [h|e] eqn:Eh; [|discriminate]. cbn [bind] in E. apply Ok_inj in E. injection E as <- <-.
      cbn [ax_stream ax_mac ax_header ax_iv ax_cap] in *. exists (rd m2 dst len :: cps), hps. cbn [concat mfeed]. rewrite Eh. cbn [bind].
      repeat (split; [first [reflexivity|assumption|apply (ses_call _ _ m src dst len st m2); assumption]|]). exact K2.
    - destruct IH as (cps & hps & <- & <- & Bh & S & Fm & Fh & K1 & K2). destruct (head_inv s l s1 E) as (E1 & E2 & E3 & K3 & K4).
      exists cps, (l :: hps). cbn [concat mfeed]. rewrite E1. cbn [bind]. rewrite <- E2, <- E3. repeat (split; [first [reflexivity|assumption|now constructor]|]). split; congruence.
  Qed.
  Lemma dec_inv k s hdr inp s' out : ae_session (dec_op k) head s hdr inp s' out -> exists cps hps,
    concat cps = inp /\ concat hps = hdr /\ Forall bytes_ok hps /\ session (sm_dec sd) (ax_stream sd md s) inp (ax_stream sd md s') out /\
    mfeed md (ax_mac sd md s) cps = Ok (ax_mac sd md s') /\ mfeed md (ax_header sd md s) hps = Ok (ax_header sd md s') /\ kept s s' /\ Forall bytes_ok cps.
  Proof.
    intros H. induction H as [s|s m src dst len s1 m1 hdr inp s2 out Hb Hi E H IH|s l s1 hdr inp s2 out Bl E H IH].
    - exists [], []. repeat split; constructor.
    - destruct IH as (cps & hps & <- & <- & Bh & S & Fm & Fh & (K1 & K2) & Bc). unfold dec_op in E. apply assert_inv in E. destruct E as [_ E]. unfold ax_decrypt in E.
      destruct (mac_input md (ax_mac sd md s) (rd m src len)) as [h|e] eqn:Eh; [|discriminate]. cbn [bind] in E.
      destruct (sm_dec sd (ax_stream sd md s) m src dst len) as [[st m2]|e] eqn:Es; [|discriminate]. cbn [bind fst snd] in E. apply Ok_inj in E. injection E as <- <-.
      cbn [ax_stream ax_mac ax_header ax_iv ax_cap] in *. exists (rd m src len :: cps), hps. cbn [concat mfeed]. rewrite Eh. cbn [bind].
      repeat (split; [first [reflexivity|assumption|apply (ses_call _ _ m src dst len st m2); assumption|split; assumption]|]). now constructor.
    - destruct IH as (cps & hps & <- & <- & Bh & S & Fm & Fh & (K1 & K2) & Bc). destruct (head_inv s l s1 E) as (E1 & E2 & E3 & K3 & K4).
      exists cps, (l :: hps). cbn [concat mfeed]. rewrite E1. cbn [bind]. rewrite <- E2, <- E3. repeat (split; [first [reflexivity|assumption|now constructor|split; congruence]|]). exact Bc.
  Qed.
  (** the tag from the states of the two MACs *)
  Definition ax_value (T2 T1 : list N) (iv : list N) (n : nat) : list N := xor_bytes (xor_bytes (firstn n T2) (firstn n iv)) (firstn n T1).
  Lemma tag_value s n q p T2 T1 : mac_tag md (ax_mac sd md s) n = Ok (q, firstn n T2) -> mac_tag md (ax_header sd md s) n = Ok (p, firstn n T1) ->
    n <= length (ax_iv sd md s) -> n <= ax_cap sd md s -> n <= length T1 -> exists s', ax_tag sd md s n = Ok (s', ax_value T2 T1 (ax_iv sd md s) n).
  Proof.
    intros E2 E1 Li Lc L1. unfold ax_tag. rewrite E2. cbn [bind fst snd]. unfold iv_read. rewrite (proj2 (Nat.leb_le _ _) Li). cbn [bind].
    rewrite E1. cbn [bind fst snd]. unfold iv_write. rewrite firstn_length, Nat.min_l by exact L1. rewrite (proj2 (Nat.leb_le _ _) Lc). cbn [bind].
    eexists. f_equal. f_equal. unfold ax_value, xor_lists. rewrite !xor_list_bytes. f_equal.
    rewrite firstn_app, firstn_firstn, Nat.min_id, firstn_length, Nat.min_l, Nat.sub_diag by exact L1. cbn [firstn]. apply app_nil_r.
  Qed.

  Section From.
    Variables (k : nat) (s0 : axst) (okl : list nat -> Prop) (okn okc okh : nat -> Prop) (Tc Th : list N -> list N).
    Hypothesis W : stream_works sd okn (ax_stream sd md s0).
    Hypothesis Hk : forall x, x mod k = 0 -> x mod sm_multof sd = 0.
    Hypothesis Gc : mac_gives md (Ok (ax_mac sd md s0)) okl okc Tc.
    Hypothesis Gh : mac_gives md (Ok (ax_header sd md s0)) okl okh Th.
    Lemma tag_after s C H cps hps n : mfeed md (ax_mac sd md s0) cps = Ok (ax_mac sd md s) -> mfeed md (ax_header sd md s0) hps = Ok (ax_header sd md s) -> kept s0 s ->
      Forall bytes_ok cps -> Forall bytes_ok hps -> concat cps = C -> concat hps = H -> okc (length C) -> okh (length H) ->
      okl [n] -> n <= length (ax_iv sd md s0) -> n <= ax_cap sd md s0 -> digests n okh Th -> exists s', ax_tag sd md s n = Ok (s', ax_value (Tc C) (Th H) (ax_iv sd md s0) n).
    Proof.
      intros Fc Fh [K1 K2] Bc Bh <- <- Oc Oh Hl Li Lc D.
      destruct (gives_feed md _ okl okc Tc cps n Gc Hl Bc Oc) as (m1 & E1 & q & E2). rewrite Fc in E1. apply Ok_inj in E1. subst m1.
      destruct (gives_feed md _ okl okh Th hps n Gh Hl Bh Oh) as (m1 & E1 & p & E3). rewrite Fh in E1. apply Ok_inj in E1. subst m1.
      rewrite <- K1 in *. rewrite <- K2 in Lc. apply (tag_value s n q p); try assumption. apply D; [now apply bytes_parts|exact Oh].
    Qed.
    Theorem enc_result hdr inp s out : ae_session (enc_op k) head s0 hdr inp s out ->
      (exists st, session (sm_enc sd) (ax_stream sd md s0) inp st out) /\ bytes_ok out /\
      (forall n, okl [n] -> ae_safe (enc_op k) head k (fun l => okn (length inp + l) /\ okc (length inp + l)) (fun l => okh (length hdr + l)) s) /\
      forall n, okc (length out) -> okh (length hdr) -> okl [n] -> n <= length (ax_iv sd md s0) -> n <= ax_cap sd md s0 -> digests n okh Th ->
        exists s', ax_tag sd md s n = Ok (s', ax_value (Tc out) (Th hdr) (ax_iv sd md s0) n).
    Proof.
      intros H. destruct (enc_inv k s0 hdr inp s out H) as (cps & hps & Ec & Eh & Bh & S & Fc & Fh & K). destruct W as (We & _ & _).
      destruct (We _ _ _ S) as [Sf Bo]. assert (Bc : Forall bytes_ok cps) by (apply bytes_concat; now rewrite Ec).
      split; [eexists; exact S|]. split; [exact Bo|]. split.
      - intros n Hl. split.
        + intros m src dst len Hm Ho Hb Hi. destruct (Sf m src dst len (Hk _ Hm) (proj1 Ho) Hb Hi) as (st & m' & Es & Fr).
          pose proof (session_snoc _ _ _ _ _ m src dst len st m' S Hb Hi Es) as S'. destruct (We _ _ _ S') as [_ Bo']. apply bytes_app in Bo'. destruct Bo' as [_ Bo'].
          destruct (gives_feed md _ okl okc Tc (cps ++ [rd m' dst len]) n Gc Hl) as (m1 & E1 & _).
          { apply Forall_app. split; [exact Bc|now constructor]. }
          { rewrite concat_app, Ec. cbn [concat]. rewrite app_nil_r, app_length, length_rd, ?(session_length _ _ _ _ _ S). exact (proj2 Ho). }
          rewrite mfeed_app, Fc in E1. cbn [bind mfeed] in E1. destruct (mac_input md (ax_mac sd md s) (rd m' dst len)) as [h|e] eqn:Em; [|discriminate].
          unfold enc_op. rewrite assert_true by (now apply Nat.eqb_eq). unfold ax_encrypt. rewrite Es. cbn [bind fst snd]. rewrite Em. cbn [bind]. eexists _, _. split; [reflexivity|exact Fr].
        + intros l Bl Ho. destruct (gives_feed md _ okl okh Th (hps ++ [l]) n Gh Hl) as (m1 & E1 & _).
          { apply Forall_app. split; [exact Bh|now constructor]. }
          { rewrite concat_app, Eh. cbn [concat]. rewrite app_nil_r, app_length. exact Ho. }
          rewrite mfeed_app, Fh in E1. cbn [bind mfeed] in E1. unfold ax_head. destruct (mac_input md (ax_header sd md s) l) as [h|e]; [|discriminate]. cbn [bind]. now eexists.
      - intros n Oc Oh Hl Li Lc D. apply (tag_after s out hdr cps hps n); assumption.
    Qed.
    Theorem dec_result hdr inp s out : ae_session (dec_op k) head s0 hdr inp s out ->
      (exists st, session (sm_dec sd) (ax_stream sd md s0) inp st out) /\ bytes_ok inp /\
      (forall n, okl [n] -> ae_safe (dec_op k) head k (fun l => okn (length inp + l) /\ okc (length inp + l)) (fun l => okh (length hdr + l)) s) /\
      forall n, okc (length inp) -> okh (length hdr) -> okl [n] -> n <= length (ax_iv sd md s0) -> n <= ax_cap sd md s0 -> digests n okh Th ->
        exists s', ax_tag sd md s n = Ok (s', ax_value (Tc inp) (Th hdr) (ax_iv sd md s0) n).
    Proof.
      intros H. destruct (dec_inv k s0 hdr inp s out H) as (cps & hps & Ec & Eh & Bh & S & Fc & Fh & K & Bc). destruct W as (_ & Wd & _).
      destruct (Wd _ _ _ S) as [Sf Bo].
      split; [eexists; exact S|]. split; [rewrite <- Ec; now apply bytes_parts|]. split.
      - intros n Hl. split.
        + intros m src dst len Hm Ho Hb Hi. destruct (Sf m src dst len (Hk _ Hm) (proj1 Ho) Hb Hi) as (st & m' & Es & Fr).
          destruct (gives_feed md _ okl okc Tc (cps ++ [rd m src len]) n Gc Hl) as (m1 & E1 & _).
          { apply Forall_app. split; [exact Bc|now constructor]. }
          { rewrite concat_app, Ec. cbn [concat]. rewrite app_nil_r, app_length, length_rd, ?(session_length _ _ _ _ _ S). exact (proj2 Ho). }
          rewrite mfeed_app, Fc in E1. cbn [bind mfeed] in E1. destruct (mac_input md (ax_mac sd md s) (rd m src len)) as [h|e] eqn:Em; [|discriminate].
          unfold dec_op. rewrite assert_true by (now apply Nat.eqb_eq). unfold ax_decrypt. rewrite Em. cbn [bind]. rewrite Es. cbn [bind fst snd]. eexists _, _. split; [reflexivity|exact Fr].
        + intros l Bl Ho. destruct (gives_feed md _ okl okh Th (hps ++ [l]) n Gh Hl) as (m1 & E1 & _).
          { apply Forall_app. split; [exact Bh|now constructor]. }
          { rewrite concat_app, Eh. cbn [concat]. rewrite app_nil_r, app_length. exact Ho. }
          rewrite mfeed_app, Fh in E1. cbn [bind mfeed] in E1. unfold ax_head. destruct (mac_input md (ax_header sd md s) l) as [h|e]; [|discriminate]. cbn [bind]. now eexists.
      - intros n Oc Oh Hl Li Lc D. apply (tag_after s inp hdr cps hps n); assumption.
    Qed.
    Theorem round_trip hdr inp s out s' out' : ae_session (enc_op k) head s0 hdr inp s out -> ae_session (dec_op k) head s0 hdr out s' out' -> out' = inp.
    Proof.
      intros He Hd. destruct (enc_result _ _ _ _ He) as ((st & S) & _). destruct (dec_result _ _ _ _ Hd) as ((st' & S') & _). destruct W as (_ & _ & Wi). exact (Wi _ _ _ _ _ S S').
    Qed.
    Variable okt : nat -> Prop.
    Hypothesis Hl : forall n, okt n -> okl [n] /\ n <= length (ax_iv sd md s0) /\ n <= ax_cap sd md s0 /\ digests n okc Tc /\ digests n okh Th.
    Hypothesis Hone : exists n, okl [n].
    Hypothesis Biv : forall n, okt n -> bytes_ok (firstn n (ax_iv sd md s0)).
    Lemma value_ok hdr ct n : okt n -> bytes_ok ct -> okc (length ct) -> bytes_ok hdr -> okh (length hdr) ->
      bytes_ok (ax_value (Tc ct) (Th hdr) (ax_iv sd md s0) n) /\ length (ax_value (Tc ct) (Th hdr) (ax_iv sd md s0) n) = n.
    Proof.
      intros Hn Bc Oc Bh Oh. destruct (Hl n Hn) as (_ & Li & _ & D2 & D1). destruct (D2 ct Bc Oc) as [B2 L2]. destruct (D1 hdr Bh Oh) as [B1 L1]. unfold ax_value. split.
      - apply bytes_xor; [apply bytes_xor|]; [now apply bytes_firstn|now apply Biv|now apply bytes_firstn].
      - rewrite !length_xor, !firstn_length. lia.
    Qed.
    Lemma session_header op hdr inp s out : ae_session op head s0 hdr inp s out -> bytes_ok hdr.
    Proof. generalize s0 as q. intros q H. induction H as [| |q l s1 hdr inp s2 out Bl E H IH]; [constructor|assumption|apply bytes_app; now split]. Qed.
    Variables (mk : N -> list N -> list N -> nat -> res axst) (remk : axst -> N -> list N -> list N -> nat -> res axst) (mxk mxi : N) (mxt : nat).
    Definition ax_desc : ae := {|
      ae_st := axst; ae_mk := mk; ae_remk := remk; ae_enc := ax_encrypt sd md; ae_dec := ax_decrypt sd md; ae_hdr := ax_head sd md; ae_out := ax_tag sd md;
      ae_multof := k; ae_maxkey := mxk; ae_maxiv := mxi; ae_maxtag := mxt |}.
    Lemma ax_tags hdr ct (s : ae_st ax_desc) : bytes_ok hdr -> bytes_ok ct -> okc (length ct) -> okh (length hdr) ->
      (forall n, okt n -> exists s', ax_tag sd md s n = Ok (s', ax_value (Tc ct) (Th hdr) (ax_iv sd md s0) n)) ->
      ae_tags ax_desc s okt (ax_value (Tc ct) (Th hdr) (ax_iv sd md s0)).
    Proof.
      intros Bh Bc Oc Oh H n Hn. split; [exact (H n Hn)|]. intros tag Bt <- Ne. destruct (H _ Hn) as (s' & E). destruct (value_ok hdr ct _ Hn Bc Oc Bh Oh) as [Bv Lv].
      exists s'. exact (ae_verify_tag ax_desc s s' _ tag E Lv Bv Bt Ne).
    Qed.
    Theorem ax_works : ae_works ax_desc s0 (fun l => okn l /\ okc l) okh okt (fun hdr ct => ax_value (Tc ct) (Th hdr) (ax_iv sd md s0)).
    Proof.
      destruct Hone as (n1 & H1). split; [|split].
      - intros hdr pt s ct H. change (ae_session (enc_op k) head s0 hdr pt s ct) in H. pose proof (session_header _ _ _ _ _ H) as Bh.
        destruct (enc_result hdr pt s ct H) as ((st & Es) & Bc & Sf & Tg). split; [exact Bc|]. split; [exact (session_length _ _ _ _ _ Es)|]. split; [exact (Sf n1 H1)|].
        intros Oc Oh. apply ax_tags; try assumption; [apply Oc|]. intros n Hn. destruct (Hl n Hn) as (L1 & L2 & L3 & L4 & L5). apply Tg; try assumption. apply Oc.
      - intros hdr ct s pt H. change (ae_session (dec_op k) head s0 hdr ct s pt) in H. pose proof (session_header _ _ _ _ _ H) as Bh.
        destruct (dec_result hdr ct s pt H) as (_ & Bc & Sf & Tg). split; [exact (Sf n1 H1)|].
        intros Oc Oh. apply ax_tags; try assumption; [apply Oc|]. intros n Hn. destruct (Hl n Hn) as (L1 & L2 & L3 & L4 & L5). apply Tg; try assumption. apply Oc.
      - intros hdr pt s ct s' pt' He Hd. exact (round_trip hdr pt s ct s' pt' He Hd).
    Qed.
  End From.


  (** ** creation *)
  Section Fill.
    Variables (P : mc_st md -> Prop) (cap : nat) (iv0 : list N) (m0 : mc_st md) (r : N) (mkey iv : list N) (n k : nat) (mkstream : list N -> res (sm_st sd)) (mkhead : res (mc_st md))
      (okl0 okl : list nat -> Prop) (okm : nat -> Prop) (T0 T : list N -> list N) (n1 : nat) (st : sm_st sd).
    Hypothesis Pin : forall s x s', P s -> mac_input md s x = Ok s' -> P s'.
    Hypothesis Ptag : forall s k s' t, P s -> mac_tag md s k = Ok (s', t) -> P s'.
    Hypothesis P0 : P m0.
    Hypothesis G0 : mac_gives md (Ok m0) okl0 okm T0.
    Hypothesis GR : forall s, P s -> mac_gives md (mac_recreate md s r mkey n) okl okm T.
    Hypothesis GH : mac_gives md mkhead okl okm T.
    Hypothesis Hn : 0 < n.
    Hypothesis Biv : bytes_ok iv.
    Hypothesis Liv : length iv <= cap.
    Hypothesis Oiv : okl0 [length iv].
    Hypothesis On : okl [n1].
    Hypothesis Om : forall l, l <= n + length iv -> okm l.
    Hypothesis D : digests (length iv) okm T0.
    Let N0 := T0 (repeat 0%N n ++ iv).
    Hypothesis Hst : mkstream (firstn (length iv) N0) = Ok st.
    Lemma bytes_zeros l : bytes_ok (repeat 0%N l).
    Proof. apply Forall_forall. intros x Hx. apply repeat_spec in Hx. now subst. Qed.
    Lemma N0_ok : bytes_ok N0 /\ length iv <= length N0.
    Proof. apply D; [apply bytes_app; split; [apply bytes_zeros|exact Biv]|]. apply Om. rewrite app_length, repeat_length. lia. Qed.
    Definition tagged (v : N) : list N := repeat 0%N (n - 1) ++ [v].
    Lemma tagged_ok v : (v < 256)%N -> bytes_ok (tagged v) /\ length (tagged v) = n.
    Proof. intros Hv. split; [apply bytes_app; split; [apply bytes_zeros|now constructor]|]. unfold tagged. rewrite app_length, repeat_length. cbn. lia. Qed.
    Theorem fill_ok : exists s, ax_fill sd md cap iv0 m0 r mkey iv n mkstream mkhead = Ok s /\ ax_stream sd md s = st /\ ax_cap sd md s = cap /\
      ax_iv sd md s = firstn (length iv) N0 ++ skipn (length iv) iv0 /\
      mac_gives md (Ok (ax_mac sd md s)) okl (fun l => okm (n + l)) (fun m => T (tagged 2 ++ m)) /\
      mac_gives md (Ok (ax_header sd md s)) okl (fun l => okm (n + l)) (fun m => T (tagged 1 ++ m)).
    Proof.
      destruct N0_ok as [BN LN]. destruct (gives_input md m0 okl0 okm T0 (repeat 0%N n) (length iv) G0 Oiv (bytes_zeros n)) as (m1 & E1); [apply Om; rewrite repeat_length; lia|].
      pose proof (gives_next md m0 _ m1 okl0 okm T0 G0 (bytes_zeros n) E1) as G1. rewrite repeat_length in G1. cbv beta in G1.
      destruct (gives_input md m1 _ _ _ iv (length iv) G1 Oiv Biv) as (m2 & E2); [apply Om; lia|].
      pose proof (gives_next md m1 _ m2 _ _ _ G1 Biv E2) as G2. cbv beta in G2.
      destruct (gives_feed md m2 _ _ _ [] (length iv) G2 Oiv) as (m2' & E2' & m3 & E3); [constructor|apply Om; cbn; lia|]. cbn [mfeed] in E2'. apply Ok_inj in E2'. subst m2'.
      cbn [concat] in E3. rewrite app_nil_r in E3. fold N0 in E3.
      assert (P3 : P m3) by (eapply Ptag; [|exact E3]; eapply Pin; [|exact E2]; eapply Pin; [|exact E1]; exact P0).
      pose proof (GR m3 P3) as G3. destruct (gives_ok md _ _ _ _ n1 G3 On) as (m4 & E4); [apply Om; lia|]. rewrite E4 in G3.
      destruct (tagged_ok 2 eq_refl) as [B2 L2]. destruct (tagged_ok 1 eq_refl) as [B1 L1].
      destruct (gives_input md m4 _ _ _ (tagged 2) n1 G3 On B2) as (m5 & E5); [apply Om; lia|].
      pose proof (gives_next md m4 _ m5 _ _ _ G3 B2 E5) as G5. rewrite L2 in G5.
      destruct (gives_ok md _ _ _ _ n1 GH On) as (h0 & E6); [apply Om; lia|]. pose proof GH as G6. rewrite E6 in G6.
      destruct (gives_input md h0 _ _ _ (tagged 1) n1 G6 On B1) as (h1 & E7); [apply Om; lia|].
      pose proof (gives_next md h0 _ h1 _ _ _ G6 B1 E7) as G7. rewrite L1 in G7.
      unfold ax_fill, last_byte. rewrite E1. cbn [bind]. rewrite E2. cbn [bind]. rewrite E3. cbn [bind fst snd].
      unfold iv_write. rewrite firstn_length, Nat.min_l by exact LN. rewrite (proj2 (Nat.leb_le _ _) Liv). cbn [bind]. rewrite E4. cbn [bind].
      destruct (Nat.eqb_spec n 0) as [Z|_]; [lia|]. cbn [bind]. fold (tagged 2). fold (tagged 1). rewrite E5. cbn [bind].
      assert (EI : firstn (length iv) (firstn (length iv) N0 ++ skipn (length iv) iv0) = firstn (length iv) N0).
      { rewrite firstn_app, firstn_firstn, Nat.min_id, firstn_length, Nat.min_l, Nat.sub_diag by exact LN. cbn [firstn]. apply app_nil_r. }
      rewrite EI, Hst. cbn [bind]. rewrite E6. cbn [bind]. rewrite E7. cbn [bind]. eexists. split; [reflexivity|]. cbn [ax_stream ax_cap ax_iv ax_mac ax_header].
      repeat (split; [reflexivity|]). split; assumption.
    Qed.
  End Fill.
End Ops.
