(** The modes from create on: every session of calls computes the mode. *)
From Coq Require Import NArith Arith List Bool Lia.
From Verif Require Import Lib.Word Lib.Res Lib.Bytes Lib.MemLemmas Lib.BlockLoop Spec.Block Spec.Modes Spec.Cipher
  Model.BlockApi Model.Mem Model.Modes Proof.ModesP Proof.ModesBP.
Import ListNotations.
Local Open Scope nat_scope.

Lemma args_ok mk mi key iv : 0 < length key <= mk -> length iv <= mi -> stream_args_ok mk mi key iv = true.
Proof.
  intros [H1 H2] H3. unfold stream_args_ok.
  now rewrite (proj2 (Nat.ltb_lt _ _) H1), (proj2 (Nat.leb_le _ _) H2), (proj2 (Nat.leb_le _ _) H3).
Qed.

Lemma args_inv mk mi key iv {A} (k : res A) x : assert_ (stream_args_ok mk mi key iv) k = Ok x ->
  length iv <= mi /\ k = Ok x.
Proof.
  unfold assert_, stream_args_ok. intros H.
  destruct (Nat.leb_spec (length iv) mi); [|rewrite andb_false_r in H; discriminate].
  split; [assumption|]. destruct (_ && _)%bool in H; [exact H|discriminate].
Qed.

(** a session in the state reached by another one is a session *)
Lemma session_app {S} (op : S -> mem -> nat -> nat -> nat -> res (S * mem)) s a s1 o1 b s2 o2 :
  session op s a s1 o1 -> session op s1 b s2 o2 -> session op s (a ++ b) s2 (o1 ++ o2).
Proof.
  induction 1 as [s|s m src dst len s1' m1 inp s2' out Hb Hi E H IH]; intros H2; [exact H2|].
  rewrite <- !app_assoc. econstructor; try eassumption. now apply IH.
Qed.

Lemma div_up n bs : 0 < bs -> n <= (n + (bs - 1)) / bs * bs.
Proof.
  intros H. pose proof (Nat.div_mod_eq (n + (bs - 1)) bs). pose proof (Nat.mod_upper_bound (n + (bs - 1)) bs). lia.
Qed.

Section Final.
  Variable c : bcipher.
  Notation bs := (bc_bs c).
  Variables (r : N) (key iv : list N) (st : bc_st c).
  Hypothesis Hcreate : bc_create c r key = Ok st.
  Hypothesis Hworks : works c st.
  Let Hbs := proj1 Hworks.
  Let Hp := proj2 Hworks.
  Hypothesis Hiv : bytes_ok iv.
  Let f := fn (bc_enc c st).
  Let g := fn (bc_dec c st).
  Let iv' := pad_iv bs iv.

  (** ECB *)
  Lemma ecb_encrypts s0 s inp out : ecb_create c r key iv = Ok s0 ->
    session (ecb_enc_op c) s0 inp s out -> ecb_spec bs f inp out /\ call_safe (ecb_enc_op c) bs s.
  Proof.
    intros H0 H. apply args_inv in H0. destruct H0 as [_ H0]. rewrite Hcreate in H0. cbn [bind] in H0.
    apply Ok_inj in H0. subst s0.
    destruct (session_crun bs (pstep c f) (ecb_inv c st) (ecb_enc_op c) Hbs (ecb_step_e c st Hp)
      (fun s m src dst n => ecb_enc_loop c st Hbs Hp s m src dst n) (ecb_enc_mod c) {| ecb_blk := st |} _ _ _ eq_refl H)
      as (n & L & B & E & I). split.
    - apply (f_equal snd) in E. cbn [snd] in E. subst out. apply ecb_crun_spec; try assumption. intros x Hx. now apply (enc_ok c st Hp).
    - intros m src dst len Hl Hb Hm.
      assert (len = len / bs * bs) as X by (pose proof (Nat.div_mod_eq len bs); lia). rewrite X in Hb, Hm |- *; clear X.
      destruct (ecb_enc_loop c st Hbs Hp s m src dst (len / bs) Hb Hm I) as (m' & E' & _ & F). eauto.
  Qed.
  Lemma ecb_decrypts s0 s s' inp out s1 out' : ecb_create c r key iv = Ok s0 ->
    session (ecb_enc_op c) s0 inp s out -> session (ecb_dec_op c) s' out s1 out' -> ecb_blk c s' = st ->
    out' = inp.
  Proof.
    intros H0 H H' Hs'. apply args_inv in H0. destruct H0 as [_ H0]. rewrite Hcreate in H0. cbn [bind] in H0.
    apply Ok_inj in H0. subst s0.
    destruct (session_crun bs (pstep c f) (ecb_inv c st) (ecb_enc_op c) Hbs (ecb_step_e c st Hp)
      (fun s m src dst n => ecb_enc_loop c st Hbs Hp s m src dst n) (ecb_enc_mod c) {| ecb_blk := st |} _ _ _ eq_refl H)
      as (n & L & B & E & I).
    destruct (session_crun bs (pstep c g) (ecb_inv c st) (ecb_dec_op c) Hbs (ecb_step_d c st Hp)
      (fun s m src dst n => ecb_dec_loop c st Hbs Hp s m src dst n) (ecb_dec_mod c) _ _ _ _ Hs' H')
      as (n' & L' & B' & E' & I').
    pose proof (f_equal snd E) as E2. pose proof (f_equal snd E') as E2'. cbn [snd] in E2, E2'.
    destruct (crun_ok bs (pstep c f) (ecb_inv c st) (ecb_step_e c st Hp) n {| ecb_blk := st |} inp eq_refl B L) as [_ [L2 _]].
    fold f in L2. rewrite <- E2 in L2. assert (n = n') as <- by nia.
    rewrite E2', E2. apply ecb_crun_rt; assumption.
  Qed.
  Lemma ecb_dec_safe s : ecb_blk c s = st -> call_safe (ecb_dec_op c) bs s.
  Proof.
    intros I m src dst len Hl Hb Hm.
    assert (len = len / bs * bs) as X by (pose proof (Nat.div_mod_eq len bs); lia). rewrite X in Hb, Hm |- *; clear X.
    destruct (ecb_dec_loop c st Hbs Hp s m src dst (len / bs) Hb Hm I) as (m' & E' & _ & F). eauto.
  Qed.

  (** CBC *)
  Lemma cbc_start s0 : cbc_create c r key iv = Ok s0 -> cbc_inv c st s0 /\ cbc_iv c s0 = iv' /\ blk bs iv'.
  Proof.
    intros H0. apply args_inv in H0. destruct H0 as [Hl H0]. rewrite Hcreate in H0. cbn [bind] in H0.
    apply Ok_inj in H0. subst s0. pose proof (blk_pad bs iv Hiv Hl) as B. repeat split; apply B.
  Qed.
  Lemma cbc_encrypts s0 s inp out : cbc_create c r key iv = Ok s0 ->
    session (cbc_encrypt c) s0 inp s out -> cbc_spec bs f iv' inp out /\ call_safe (cbc_encrypt c) bs s.
  Proof.
    intros H0 H. destruct (cbc_start s0 H0) as (I0 & E0 & _).
    destruct (session_crun bs (cbc_estep c st) (cbc_inv c st) (cbc_encrypt c) Hbs (cbc_estep_ok c st Hp)
      (fun s m src dst n => cbc_enc_loop c st Hbs Hp s m src dst n) (cbc_enc_mod c) _ _ _ _ I0 H)
      as (n & L & B & E & I). split.
    - apply (f_equal snd) in E. cbn [snd] in E. subst out. rewrite <- E0. apply cbc_crun_spec; assumption.
    - intros m src dst len Hl Hb Hm.
      assert (len = len / bs * bs) as X by (pose proof (Nat.div_mod_eq len bs); lia). rewrite X in Hb, Hm |- *; clear X.
      destruct (cbc_enc_loop c st Hbs Hp s m src dst (len / bs) Hb Hm I) as (m' & E' & _ & F). eauto.
  Qed.
  Lemma cbc_decrypts s0 s s1 inp out out' : cbc_create c r key iv = Ok s0 ->
    session (cbc_encrypt c) s0 inp s out -> session (cbc_decrypt c) s0 out s1 out' ->
    out' = inp /\ call_safe (cbc_decrypt c) bs s1.
  Proof.
    intros H0 H H'. destruct (cbc_start s0 H0) as (I0 & E0 & _).
    destruct (session_crun bs (cbc_estep c st) (cbc_inv c st) (cbc_encrypt c) Hbs (cbc_estep_ok c st Hp)
      (fun s m src dst n => cbc_enc_loop c st Hbs Hp s m src dst n) (cbc_enc_mod c) _ _ _ _ I0 H)
      as (n & L & B & E & I).
    destruct (session_crun bs (cbc_dstep c st) (cbc_inv c st) (cbc_decrypt c) Hbs (cbc_dstep_ok c st Hp)
      (fun s m src dst n => cbc_dec_loop c st Hbs Hp s m src dst n) (cbc_dec_mod c) _ _ _ _ I0 H')
      as (n' & L' & B' & E' & I').
    pose proof (f_equal snd E) as E2. pose proof (f_equal snd E') as E2'. cbn [snd] in E2, E2'.
    destruct (crun_ok bs (cbc_estep c st) (cbc_inv c st) (cbc_estep_ok c st Hp) n s0 inp I0 B L) as [_ [L2 _]].
    rewrite <- E2 in L2. assert (n = n') as <- by nia. split.
    - rewrite E2', E2. apply cbc_crun_rt; assumption.
    - intros m src dst len Hl Hb Hm.
      assert (len = len / bs * bs) as X by (pose proof (Nat.div_mod_eq len bs); lia). rewrite X in Hb, Hm |- *; clear X.
      destruct (cbc_dec_loop c st Hbs Hp s1 m src dst (len / bs) Hb Hm I') as (m' & Em & _ & F). eauto.
  Qed.

  (** CFB and OFB *)
  Lemma fb_start s0 : fb_create c r key iv = Ok s0 ->
    fb_blk c s0 = st /\ fb_prev c s0 = iv' /\ fb_used c s0 = bs /\ blk bs iv'.
  Proof.
    intros H0. apply args_inv in H0. destruct H0 as [Hl H0]. rewrite Hcreate in H0. cbn [bind] in H0.
    apply Ok_inj in H0. subst s0. pose proof (blk_pad bs iv Hiv Hl) as B. repeat split; apply B.
  Qed.
  Lemma cfb_encrypts s0 s inp out : fb_create c r key iv = Ok s0 ->
    session (cfb_encrypt c) s0 inp s out -> cfb_spec bs f iv' inp out /\ call_safe (cfb_encrypt c) 1 s.
  Proof.
    intros H0 H. destruct (fb_start s0 H0) as (E1 & E2 & E3 & B).
    assert (I0 : cfb_inv c st iv' [] s0) by (split; [exact E1|]; split; [constructor|left; auto]).
    assert (S0 : cfb_spec bs f iv' [] []) by (split; [reflexivity|cbn; lia]).
    destruct (cfb_session c st Hbs Hp iv' B s0 inp s out H [] [] I0 S0) as [I1 S1].
    split; [exact S1|]. intros m src dst len _ Hb Hm.
    destruct (cfb_call c st Hbs Hp iv' B out inp s m src dst len I1 S1 Hb Hm) as (s' & m' & E & _ & _ & F). eauto.
  Qed.
  Lemma cfb_dec_partial s0 m src dst len : fb_create c r key iv = Ok s0 ->
    0 < len <= bs -> src + len <= dst \/ dst + bs <= src -> bytes_ok (rd m src len) ->
    exists s' m', cfb_decrypt c s0 m src dst len = Ok (s', m') /\ cfb_spec bs f iv' (rd m' dst len) (rd m src len) /\
      frame m m' dst bs.
  Proof.
    intros H0 Hl Hb Hm. destruct (fb_start s0 H0) as (E1 & E2 & E3 & B).
    destruct (cfb_dec_first c st Hbs Hp iv' B s0 m src dst len E1 E2 E3 Hl Hb) as (s' & m' & E & R & F & _).
    exists s', m'. split; [exact E|]. split; [|exact F].
    destruct (enc_ok c st Hp iv' B) as (_ & [Lf _] & _). fold f in Lf.
    split; [now rewrite !length_rd|]. intros n Hn. rewrite length_rd in Hn.
    rewrite (Nat.mod_small n bs), (Nat.div_small n bs) by lia.
    rewrite R. fold f.
    assert (L1 : length (firstn len (f iv')) = length (rd m src len)) by (rewrite firstn_length, length_rd; lia).
    rewrite nth_xor_bytes; [|now rewrite length_rd|exact L1].
    rewrite nth_firstn by exact Hn. now rewrite lxor_cancel.
  Qed.
  (** decryption one whole block per call, into a separate buffer *)
  Definition cfb_dec_block (s : fb c) (m : mem) (src dst len : nat) : res (fb c * mem) :=
    assert_ ((len =? bs) && ((src + bs <=? dst) || (dst + bs <=? src))) (cfb_decrypt c s m src dst len).
  Lemma cfb_dec_blocks v s ct s' pt : blk bs v -> s = {| fb_blk := st; fb_prev := v; fb_used := bs |} ->
    session cfb_dec_block s ct s' pt -> cfb_spec bs f v pt ct.
  Proof.
    intros B Hs H. revert v B Hs. induction H as [s|s m src dst len s1 m1 inp s2 out Hb Hi E H IH]; intros v B Hs.
    - split; [reflexivity|cbn; lia].
    - unfold cfb_dec_block, assert_ in E. destruct (_ && _)%bool eqn:A in E; [|discriminate].
      apply andb_prop in A. destruct A as [A1 A2]. apply Nat.eqb_eq in A1. subst len.
      assert (D : src + bs <= dst \/ dst + bs <= src).
      { apply orb_prop in A2. destruct A2 as [A2|A2]; apply Nat.leb_le in A2; auto. }
      destruct (cfb_dec_first c st Hbs Hp v B s m src dst bs) as (s1' & m1' & E' & R & F & Hs1);
        try (rewrite Hs; reflexivity); try lia; try exact D.
      rewrite E in E'. injection E' as <- <-.
      specialize (IH (rd m src bs) (conj (length_rd _ _ _) Hi) (Hs1 eq_refl)). destruct IH as [IL IH].
      destruct (enc_ok c st Hp v B) as (_ & [Lf _] & _). fold f in Lf.
      split; [rewrite !app_length, !length_rd; lia|].
      intros n Hn. rewrite app_length, length_rd in Hn.
      destruct (Nat.lt_ge_cases n bs) as [L|L].
      + rewrite !app_nth1 by (rewrite length_rd; exact L). rewrite (Nat.mod_small n bs), (Nat.div_small n bs) by lia.
        rewrite R. assert (L1 : length (firstn bs (f v)) = length (rd m src bs)) by (rewrite firstn_length, length_rd; lia).
        rewrite nth_xor_bytes; [|now rewrite length_rd|exact L1]. rewrite nth_firstn by exact L. fold f. now rewrite lxor_cancel.
      + rewrite !app_nth2 by (rewrite length_rd; exact L). rewrite !length_rd, IH by lia. f_equal.
        assert (X : n = n - bs + 1 * bs) by lia.
        assert (Q1 : n mod bs = (n - bs) mod bs) by (rewrite X at 1; apply Nat.mod_add; lia).
        assert (Q2 : n / bs = S ((n - bs) / bs)) by (rewrite X at 1; rewrite Nat.div_add by lia; lia).
        rewrite Q1, Q2. f_equal. f_equal. destruct ((n - bs) / bs) as [|j].
        * symmetry. apply block_app_0. apply length_rd.
        * symmetry. apply block_app_S. apply length_rd.
  Qed.
  Lemma cfb_spec_inj v a a' o : cfb_spec bs f v a o -> cfb_spec bs f v a' o -> a = a'.
  Proof.
    intros [L H] [L' H']. apply nth_ext with (d := 0%N) (d' := 0%N); [congruence|].
    intros n Hn. pose proof (H n Hn) as E. rewrite (H' n) in E by congruence.
    apply (f_equal (fun x => N.lxor x (nth (n mod bs) (f (match n / bs with O => v | S j => block bs j o end)) 0%N))) in E.
    now rewrite !lxor_cancel in E.
  Qed.
  Lemma cfb_dec_blockwise s0 s s1 inp out out' : fb_create c r key iv = Ok s0 ->
    session (cfb_encrypt c) s0 inp s out -> session cfb_dec_block s0 out s1 out' -> out' = inp.
  Proof.
    intros H0 H H'. destruct (fb_start s0 H0) as (E1 & E2 & E3 & B).
    destruct (cfb_encrypts s0 s inp out H0 H) as [S1 _].
    apply (cfb_spec_inj iv' out' inp out); [|exact S1]. apply (cfb_dec_blocks iv' s0 out s1 out' B); [|exact H'].
    destruct s0 as [b p u]; cbn in *. now subst.
  Qed.
  Lemma ofb_crypts s0 s inp out : fb_create c r key iv = Ok s0 ->
    session (ofb_crypt c) s0 inp s out ->
    out = xor_ks (ofb_ks bs f iv') 0 inp /\ call_safe (ofb_crypt c) 1 s.
  Proof.
    intros H0 H. destruct (fb_start s0 H0) as (E1 & E2 & E3 & B).
    assert (A0 : at_ofb c st iv' 0 s0) by (split; [exact E1|left; auto]).
    destruct (session_ks (ofb_step c) (at_ofb c st iv') _ (ofb_step_ok c st Hbs Hp iv' B) 0 s0 inp s out A0 H) as [-> A].
    split; [reflexivity|]. exact (safe_ks (ofb_step c) (at_ofb c st iv') _ (ofb_step_ok c st Hbs Hp iv' B) _ s 1 A).
  Qed.
  Lemma ofb_prngs s0 s out : fb_create c r key iv = Ok s0 -> gsession (fb_prng c) s0 s out ->
    out = map (ofb_ks bs f iv') (seq 0 (length out)) /\ gcall_safe (fb_prng c) s.
  Proof.
    intros H0 H. destruct (fb_start s0 H0) as (E1 & E2 & E3 & B).
    assert (A0 : at_ofb c st iv' 0 s0) by (split; [exact E1|left; auto]).
    destruct (gsession_ks (fb_prng_step c) (at_ofb c st iv') _ (fb_prng_step_ok c st Hbs Hp iv' B) 0 s0 s out A0 H) as [E A].
    split; [exact E|]. exact (gsafe_ks (fb_prng_step c) (at_ofb c st iv') _ (fb_prng_step_ok c st Hbs Hp iv' B) _ s A).
  Qed.

  (** CTR *)
  Lemma ctr_start s0 : ctr_create c r key iv = Ok s0 -> at_ctr c st iv' 0 s0 /\ blk bs iv'.
  Proof.
    intros H0. apply args_inv in H0. destruct H0 as [Hl H0]. rewrite Hcreate in H0. cbn [bind] in H0.
    apply Ok_inj in H0. subst s0. pose proof (blk_pad bs iv Hiv Hl) as B.
    split; [|exact B]. split; [reflexivity|]. left. auto.
  Qed.
  Lemma ctr_crypts_lib s0 s inp out : ctr_create c r key iv = Ok s0 -> session (ctr_crypt c) s0 inp s out ->
    out = xor_ks (lib_ctr_ks c st iv') 0 inp /\ call_safe (ctr_crypt c) 1 s.
  Proof.
    intros H0 H. destruct (ctr_start s0 H0) as (A0 & B).
    destruct (session_ks (ctr_step c) (at_ctr c st iv') _ (ctr_step_ok c st Hbs Hp iv' B) 0 s0 inp s out A0 H) as [-> A].
    split; [reflexivity|]. exact (safe_ks (ctr_step c) (at_ctr c st iv') _ (ctr_step_ok c st Hbs Hp iv' B) _ s 1 A).
  Qed.
  Lemma ctr_prngs_lib s0 s out : ctr_create c r key iv = Ok s0 -> gsession (ctr_prng c) s0 s out ->
    out = map (lib_ctr_ks c st iv') (seq 0 (length out)) /\ gcall_safe (ctr_prng c) s.
  Proof.
    intros H0 H. destruct (ctr_start s0 H0) as (A0 & B).
    destruct (gsession_ks (ctr_prng_step c) (at_ctr c st iv') _ (ctr_prng_step_ok c st Hbs Hp iv' B) 0 s0 s out A0 H) as [E A].
    split; [exact E|]. exact (gsafe_ks (ctr_prng_step c) (at_ctr c st iv') _ (ctr_prng_step_ok c st Hbs Hp iv' B) _ s A).
  Qed.
  (** number of key stream blocks used for [n] bytes *)
  Let blocks n := (n + (bs - 1)) / bs.
  Lemma ctr_crypts s0 s inp out : ctr_create c r key iv = Ok s0 -> session (ctr_crypt c) s0 inp s out ->
    (be_val (skipn 1 iv') + N.of_nat (blocks (length inp)) <= 256 ^ N.of_nat (bs - 1))%N ->
    out = xor_ks (ctr_ks bs f iv') 0 inp.
  Proof.
    intros H0 H Hc. destruct (ctr_start s0 H0) as (_ & B).
    destruct (ctr_crypts_lib s0 s inp out H0 H) as [-> _]. apply xor_ks_ext. intros j Hj.
    apply (lib_ctr_ks_std c st Hbs iv' B (blocks (length inp))); [|exact Hc].
    pose proof (div_up (length inp) bs Hbs). unfold blocks. lia.
  Qed.
  Lemma ctr_prngs s0 s out : ctr_create c r key iv = Ok s0 -> gsession (ctr_prng c) s0 s out ->
    (be_val (skipn 1 iv') + N.of_nat (blocks (length out)) <= 256 ^ N.of_nat (bs - 1))%N ->
    out = map (ctr_ks bs f iv') (seq 0 (length out)).
  Proof.
    intros H0 H Hc. destruct (ctr_start s0 H0) as (_ & B).
    destruct (ctr_prngs_lib s0 s out H0 H) as [E _]. rewrite E at 1. apply map_ext_in. intros j Hj. apply in_seq in Hj.
    apply (lib_ctr_ks_std c st Hbs iv' B (blocks (length out))); [|exact Hc].
    pose proof (div_up (length out) bs Hbs). unfold blocks. lia.
  Qed.
  Lemma ctr_involution s0 s s' inp out out' : ctr_create c r key iv = Ok s0 ->
    session (ctr_crypt c) s0 inp s out -> session (ctr_crypt c) s0 out s' out' -> out' = inp.
  Proof.
    intros H0 H H'. destruct (ctr_crypts_lib _ _ _ _ H0 H) as [-> _]. destruct (ctr_crypts_lib _ _ _ _ H0 H') as [-> _].
    apply xor_ks_invol.
  Qed.
  Lemma ofb_involution s0 s s' inp out out' : fb_create c r key iv = Ok s0 ->
    session (ofb_crypt c) s0 inp s out -> session (ofb_crypt c) s0 out s' out' -> out' = inp.
  Proof.
    intros H0 H H'. destruct (ofb_crypts _ _ _ _ H0 H) as [-> _]. destruct (ofb_crypts _ _ _ _ H0 H') as [-> _].
    apply xor_ks_invol.
  Qed.

  (** C13: the key stream blocks of the library are pairwise different *)
  Lemma ctr_no_repeats s0 s inp out : ctr_create c r key iv = Ok s0 ->
    gsession (ctr_prng c) s0 s out -> length out = inp * bs -> (N.of_nat inp <= 256 ^ N.of_nat (bs - 1))%N ->
    forall i j, i < j < inp -> block bs i out <> block bs j out.
  Proof.
    intros H0 H L Hn i j Hij Heq. destruct (ctr_start s0 H0) as (_ & B).
    destruct (ctr_prngs_lib s0 s out H0 H) as [E _].
    assert (G : forall k, k < inp -> block bs k out = f (ctr_at iv' k)).
    { intros k Hk. destruct (enc_ok c st Hp _ (ctr_at_blk _ _ k B)) as (_ & [Lf _] & _).
      unfold block. apply nth_ext with (d := 0%N) (d' := 0%N).
      - rewrite length_slice by nia. symmetry. exact Lf.
      - rewrite length_slice by nia. intros u Hu. rewrite nth_slice by exact Hu. rewrite E.
        rewrite (nth_indep _ 0%N (lib_ctr_ks c st iv' 0)) by (rewrite map_length, seq_length; nia).
        rewrite (map_nth (lib_ctr_ks c st iv')), seq_nth by nia. cbn [Nat.add].
        unfold lib_ctr_ks, ks_byte. destruct (divmod c Hbs k u Hu) as [-> ->]. reflexivity. }
    rewrite !G in Heq by lia.
    assert (X : ctr_at iv' i = ctr_at iv' j).
    { destruct (enc_ok c st Hp _ (ctr_at_blk _ _ i B)) as (_ & _ & R1).
      destruct (enc_ok c st Hp _ (ctr_at_blk _ _ j B)) as (_ & _ & R2).
      fold f in R1, R2. rewrite <- R1, <- R2, Heq. reflexivity. }
    apply (ctr_at_inj bs iv' i j B Hbs) in X; lia.
  Qed.
End Final.

(** Re-keying a mode object. *)
Lemma ecb_rekey c s r key iv : recreate_ok c (ecb_blk c s) r key -> ecb_recreate c s r key iv = ecb_create c r key iv.
Proof. unfold recreate_ok, ecb_recreate, ecb_create. now intros ->. Qed.
Lemma cbc_rekey c s r key iv : recreate_ok c (cbc_blk c s) r key -> cbc_recreate c s r key iv = cbc_create c r key iv.
Proof. unfold recreate_ok, cbc_recreate, cbc_create. now intros ->. Qed.
Lemma fb_rekey c s r key iv : recreate_ok c (fb_blk c s) r key -> fb_recreate c s r key iv = fb_create c r key iv.
Proof. unfold recreate_ok, fb_recreate, fb_create. now intros ->. Qed.
(** a re-keyed CTR object keeps old bytes in its buffer, which are never used *)
Lemma ctr_rekey_crypts c r key iv st (Hcreate : bc_create c r key = Ok st) (Hworks : works c st) (Hiv : bytes_ok iv)
  sold s0 s inp out :
  recreate_ok c (ctr_blk c sold) r key -> ctr_recreate c sold r key iv = Ok s0 ->
  session (ctr_crypt c) s0 inp s out ->
  out = xor_ks (lib_ctr_ks c st (pad_iv (bc_bs c) iv)) 0 inp /\ call_safe (ctr_crypt c) 1 s.
Proof.
  intros Hr H0 H. apply args_inv in H0. destruct H0 as [Hl H0]. rewrite Hr, Hcreate in H0. cbn [bind] in H0.
  apply Ok_inj in H0. pose proof (blk_pad (bc_bs c) iv Hiv Hl) as B. destruct Hworks as [Hbs Hp].
  assert (A0 : at_ctr c st (pad_iv (bc_bs c) iv) 0 s0) by (subst s0; split; [reflexivity|left; auto]).
  destruct (session_ks (ctr_step c) (at_ctr c st (pad_iv (bc_bs c) iv)) _ (ctr_step_ok c st Hbs Hp _ B) 0 s0 inp s out A0 H) as [-> A].
  split; [reflexivity|]. exact (safe_ks (ctr_step c) (at_ctr c st (pad_iv (bc_bs c) iv)) _ (ctr_step_ok c st Hbs Hp _ B) _ s 1 A).
Qed.
