(** EAX over the ciphers of the library. *)
From Coq Require Import NArith Arith List Bool Lia.
From Verif Require Import Lib.Res Lib.Bytes Lib.XorBytes Lib.MemLemmas Lib.BlockLemmas Model.Mem Model.Util Model.BlockApi Model.Modes Model.StreamApi Model.MacApi Model.Md Model.Omac Model.Eax
  Spec.Block Spec.Cipher Spec.Modes Spec.Mac Spec.CbcMac Spec.Hmac Spec.Ae Proof.ModesP Proof.ModesBP Proof.ModesFinal Proof.RekeyP Proof.MacP Proof.CbcMacP Proof.CbcMacPubP Proof.AeP.
Import ListNotations.
Local Open Scope nat_scope.

Lemma bytes_xor_ks ks l : (forall i, (ks i < 256)%N) -> bytes_ok l -> forall i, bytes_ok (xor_ks ks i l).
Proof.
  intros Hk. induction l as [|x l IH]; intros Hb i; cbn [xor_ks]; [constructor|]. inversion_clear Hb. constructor; [|now apply IH].
  assert (B : bytes_ok (xor_bytes [x] [ks i])) by (apply bytes_xor; repeat constructor; try assumption; apply Hk). now inversion B.
Qed.
Lemma session_bytes {S} (op : S -> mem -> nat -> nat -> nat -> res (S * mem)) s inp s1 out : session op s inp s1 out -> bytes_ok inp.
Proof. induction 1; [constructor|apply bytes_app; now split]. Qed.
(** key stream ciphers *)
Lemma ks_works d okn s0 ks : sm_dec d = sm_enc d -> (forall i, (ks i < 256)%N) ->
  (forall inp s out, session (sm_enc d) s0 inp s out -> out = xor_ks ks 0 inp /\ safe_for (sm_enc d) (sm_multof d) (fun l => okn (length inp + l)) s) -> stream_works d okn s0.
Proof.
  intros E Hk H. unfold stream_works. rewrite E.
  assert (A : forall inp s out, session (sm_enc d) s0 inp s out -> safe_for (sm_enc d) (sm_multof d) (fun l => okn (length inp + l)) s /\ bytes_ok out).
  { intros inp s out S. destruct (H inp s out S) as [-> Sf]. split; [exact Sf|]. apply bytes_xor_ks; [exact Hk|exact (session_bytes _ _ _ _ _ S)]. }
  split; [exact A|]. split; [exact A|]. intros inp s out s' out' S1 S2. destruct (H _ _ _ S1) as [-> _]. destruct (H _ _ _ S2) as [-> _]. apply xor_ks_invol.
Qed.
Lemma nth_byte_lt l i : bytes_ok l -> (nth i l 0 < 256)%N.
Proof. intros B. destruct (Nat.lt_ge_cases i (length l)) as [H|H]; [|rewrite nth_overflow by exact H; reflexivity]. apply (proj1 (Forall_forall _ _) B). now apply nth_In. Qed.
Lemma ctr_at_blk bs iv i : blk bs iv -> 0 < bs -> blk bs (ctr_at iv i).
Proof.
  intros [L B] H. unfold ctr_at. destruct iv as [|a t]; [cbn in L; lia|]. inversion_clear B. cbn [length] in L. split.
  - cbn [length]. rewrite length_be_bytes. lia.
  - constructor; [assumption|]. apply bytes_be_bytes.
Qed.

Lemma ae_works_ext d s0 (okc okh okt okc' okh' okt' : nat -> Prop) T T' : ae_works d s0 okc okh okt T ->
  (forall l, okc' l -> okc l) -> (forall l, okh' l -> okh l) -> (forall l, okt' l -> okt l) -> (forall hdr ct n, okt' n -> T hdr ct n = T' hdr ct n) -> ae_works d s0 okc' okh' okt' T'.
Proof.
  intros (E & D & I) Hc Hh Ht HT.
  assert (X : forall s hdr ct, ae_tags d s okt (T hdr ct) -> ae_tags d s okt' (T' hdr ct)).
  { intros s hdr ct A n Hn. rewrite <- (HT hdr ct n Hn). exact (A n (Ht n Hn)). }
  split; [|split; [|exact I]].
  - intros hdr pt s ct S. destruct (E hdr pt s ct S) as (B & L & Sf & Tg). split; [exact B|]. split; [exact L|]. split; [|intros Oc Oh; apply X, Tg; auto].
    destruct Sf as [S1 S2]. split; [intros m src dst len Hm Ho; apply S1; auto|intros l Bl Ho; apply S2; auto].
  - intros hdr ct s pt S. destruct (D hdr ct s pt S) as (Sf & Tg). split; [|intros Oc Oh; apply X, Tg; auto].
    destruct Sf as [S1 S2]. split; [intros m src dst len Hm Ho; apply S1; auto|intros l Bl Ho; apply S2; auto].
Qed.

Section Keep.
  Variable c : bcipher.
  Lemma om_byte_keeps s x s' : omac_byte c s x = Ok s' -> om_block c s' = om_block c s.
  Proof.
    unfold omac_byte. destruct (om_i c s =? bc_bs c).
    - destruct (enc_buf c (om_block c s) (om_buf c s)) as [p|e]; [|discriminate]. cbn [bind om_prev om_i om_buf om_block om_lu om_lu2 om_f].
      destruct (get p 0) as [k|e]; [|discriminate]. cbn [bind]. destruct (bput _ _ _ _) as [b|e]; [|discriminate]. cbn [bind]. intros E. apply Ok_inj in E. now subst s'.
    - cbn [bind]. destruct (get _ _) as [k|e]; [|discriminate]. cbn [bind]. destruct (bput _ _ _ _) as [b|e]; [|discriminate]. cbn [bind]. intros E. apply Ok_inj in E. now subst s'.
  Qed.
  Lemma om_input_keeps l : forall s s', omac_input c s l = Ok s' -> om_block c s' = om_block c s.
  Proof.
    induction l as [|x l IH]; intros s s' E; cbn [omac_input] in E; [apply Ok_inj in E; now subst|].
    destruct (omac_byte c s x) as [s1|e] eqn:E1; [|discriminate]. cbn [bind] in E. now rewrite (IH _ _ E), (om_byte_keeps _ _ _ E1).
  Qed.
  Lemma om_tag_keeps s n s' t : omac_tag c s n = Ok (s', t) -> om_block c s' = om_block c s.
  Proof.
    unfold omac_tag. assert (X : forall q, (if om_f c s then Ok s else omac_finish c s) = Ok q -> om_block c q = om_block c s).
    { intros q. destruct (om_f c s); [intros E; apply Ok_inj in E; now subst|]. unfold omac_finish. destruct (enc_buf _ _ _) as [b|e]; [|discriminate]. cbn [bind]. intros E. apply Ok_inj in E. now subst q. }
    destruct (if om_f c s then Ok s else omac_finish c s) as [q|e]; [|discriminate]. cbn [bind]. intros E. apply assert_inv in E. destruct E as [_ E].
    destruct (reads _ _ _) as [u|e]; [|discriminate]. cbn [bind] in E. apply Ok_inj in E. injection E as <- _. cbn [om_block]. now apply X.
  Qed.
  Lemma om_init_block b buf s : omac_init c b buf = Ok s -> om_block c s = b.
  Proof. unfold omac_init. destruct (bc_enc c b _) as [l|e]; [|discriminate]. cbn [bind]. intros E. apply Ok_inj in E. now subst. Qed.
End Keep.
Lemma om_create_block c r key n b s : bc_create c r key = Ok b -> mac_create (omac_desc c) r key n = Ok s -> om_block c s = b.
Proof. intros Eb E. apply assert_inv in E. destruct E as [_ E]. cbn [mc_create omac_desc] in E. unfold omac_create in E. rewrite Eb in E. exact (om_init_block c b _ s E). Qed.
Lemma om_recreate_block c m r key n b s : bc_recreate c (om_block c m) r key = Ok b -> mac_recreate (omac_desc c) m r key n = Ok s -> om_block c s = b.
Proof. intros Eb E. apply assert_inv in E. destruct E as [_ E]. cbn [mc_recreate omac_desc] in E. unfold omac_recreate in E. rewrite Eb in E. exact (om_init_block c b _ s E). Qed.

Lemma mfor_keeps {A} (P : A -> Prop) f : (forall i x y, f i x = Ok y -> P x -> P y) -> forall n i x y, mfor n i f x = Ok y -> P x -> P y.
Proof.
  intros H n. induction n as [|n IH]; intros i x y E Px; cbn [mfor] in E; [apply Ok_inj in E; now subst|].
  destruct (f i x) as [z|e] eqn:Ez; [|discriminate]. cbn [bind] in E. exact (IH _ _ _ E (H _ _ _ Ez Px)).
Qed.
Lemma ctr_crypt_keeps c s m src dst len s1 m1 : ctr_crypt c s m src dst len = Ok (s1, m1) -> ctr_blk c s1 = ctr_blk c s.
Proof.
  unfold ctr_crypt, bloop. intros E. apply (mfor_keeps (fun p => ctr_blk c (fst p) = ctr_blk c s)) in E; [exact E| |reflexivity].
  intros i [q m2] y. cbn [fst snd]. unfold ctr_step, ctr_refill. destruct (ctr_used c q =? bc_bs c).
  - destruct (bc_enc c (ctr_blk c q) (ctr_x c q)) as [l|e]; [|discriminate]. cbn [bind ctr_buf ctr_used ctr_blk ctr_x]. destruct (get l 0) as [k|e]; [|discriminate]. cbn [bind fst snd]. intros X. apply Ok_inj in X. now subst y.
  - cbn [bind]. destruct (get _ _) as [k|e]; [|discriminate]. cbn [bind fst snd]. intros X. apply Ok_inj in X. now subst y.
Qed.
(** what no call changes *)
Section Inv.
  Variables (c : bcipher) (b : bc_st c).
  Local Notation st := (axst (ctr_stream c) (omac_desc c)).
  Definition eax_inv (s : st) : Prop := om_block c (ax_mac _ _ s) = b /\ om_block c (ax_header _ _ s) = b /\ ctr_blk c (ax_stream _ _ s) = b.
  Lemma inv_tag (s s1 : st) n t : ax_tag _ _ s n = Ok (s1, t) -> eax_inv s -> eax_inv s1.
  Proof.
    unfold ax_tag. intros E (A1 & A2 & A3). destruct (mac_tag (omac_desc c) (ax_mac _ _ s) n) as [[q u]|e] eqn:E1; [|discriminate]. cbn [bind fst snd] in E.
    destruct (iv_read _ _ _) as [v|e]; [|discriminate]. cbn [bind] in E. destruct (mac_tag (omac_desc c) (ax_header _ _ s) n) as [[p w]|e] eqn:E2; [|discriminate]. cbn [bind fst snd] in E.
    destruct (iv_write _ _ _) as [x|e]; [|discriminate]. cbn [bind] in E. apply Ok_inj in E. injection E as <- _. unfold eax_inv. cbn [ax_mac ax_header ax_stream].
    rewrite (om_tag_keeps c _ _ _ _ E1), (om_tag_keeps c _ _ _ _ E2). auto.
  Qed.
  Lemma used_inv (s s' : ae_st (eax_desc c)) : ae_used (eax_desc c) s s' -> eax_inv s -> eax_inv s'.
  Proof.
    intros H. induction H as [s|s m src dst len s1 m1 s2 E H IH|s m src dst len s1 m1 s2 E H IH|s l s1 s2 E H IH|s n t s1 s2 E H IH|s tag v s1 s2 E H IH]; intros I; [exact I| | | | |]; apply IH; clear IH H.
    - unfold ae_encrypt in E. apply assert_inv in E. destruct E as [_ E]. cbn [ae_enc eax_desc] in E. unfold ax_encrypt in E.
      destruct (sm_enc _ _ m src dst len) as [[q m2]|e] eqn:E1; [|discriminate]. cbn [bind fst snd] in E. destruct (mac_input _ _ _) as [h|e] eqn:E2; [|discriminate]. cbn [bind] in E. apply Ok_inj in E. injection E as <- _.
      destruct I as (A1 & A2 & A3). unfold eax_inv. cbn [ax_mac ax_header ax_stream]. rewrite (om_input_keeps c _ _ _ E2), (ctr_crypt_keeps c _ _ _ _ _ _ _ E1). auto.
    - unfold ae_decrypt in E. apply assert_inv in E. destruct E as [_ E]. cbn [ae_dec eax_desc] in E. unfold ax_decrypt in E.
      destruct (mac_input _ _ _) as [h|e] eqn:E2; [|discriminate]. cbn [bind] in E. destruct (sm_dec _ _ m src dst len) as [[q m2]|e] eqn:E1; [|discriminate]. cbn [bind fst snd] in E. apply Ok_inj in E. injection E as <- _.
      destruct I as (A1 & A2 & A3). unfold eax_inv. cbn [ax_mac ax_header ax_stream]. rewrite (om_input_keeps c _ _ _ E2), (ctr_crypt_keeps c _ _ _ _ _ _ _ E1). auto.
    - destruct (head_inv _ _ s l s1 E) as (E1 & E2 & E3 & _). destruct I as (A1 & A2 & A3). unfold eax_inv. rewrite (om_input_keeps c _ _ _ E1), E2, E3. auto.
    - exact (inv_tag s s1 n t E I).
    - unfold ae_verify in E. destruct (length tag =? 0); [discriminate|]. destruct (ae_out (eax_desc c) s (length tag)) as [[q u]|e] eqn:E1; [|discriminate]. cbn [bind fst snd] in E. apply Ok_inj in E. injection E as <- _.
      exact (inv_tag s q _ u E1 I).
  Qed.
End Inv.

Section Eax.
  Variables (c : bcipher) (r : N) (key : list N) (b : bc_st c) (F : list N -> list N) (R : N) (iv : list N).
  Let bs := bc_bs c.
  Hypothesis Hk : key_ok (bc_maxkey c) key.
  Hypothesis Es : bc_create c r key = Ok b.
  Hypothesis W : works c b.
  Hypothesis HF : enc_fn c b F.
  Hypothesis Rk : recreate_ok c b r key.
  Hypothesis HR : cmac_poly (bc_bs c) = Some R.
  Hypothesis Biv : bytes_ok iv.
  Hypothesis Liv : length iv <= bs.
  Let H0 : 0 < length key. Proof. apply Hk. Qed.
  Let Hbs : 0 < bs. Proof. apply W. Qed.
  Lemma blk_cmac m : bytes_ok m -> blk bs (cmac bs F R m).
  Proof.
    intros Bm. destruct (poly_ok _ _ HR) as [P1 P2].
    destruct (om_init c b F R HF P1 P2 []) as (s & E & Rs). destruct (om_feed c b F R HF P2 [m] [] s Rs) as (s1 & _ & R1); [now constructor|].
    destruct (om_tags c b F R HF P2 _ s1 [] R1) as [_ BT]; [cbn; lia|]. cbn [app concat] in BT. rewrite app_nil_r in BT. exact BT.
  Qed.
  Lemma cmac_digests n okm : n <= bs -> digests n okm (cmac bs F R).
  Proof. intros Hn m Bm _. destruct (blk_cmac m Bm) as [L B]. split; [exact B|lia]. Qed.
  Let nonce := omac_k bs F R 0 iv.
  Let ctr0 := pad_iv bs (firstn (length iv) nonce).
  Let ks := ks_byte bs (fun i => F (ctr_at ctr0 i)).
  Lemma be_tag v : 0 < bs -> (v < 256)%N -> be_bytes bs v = tagged bs v.
  Proof.
    intros H Hv. unfold tagged. destruct bs as [|n]; [lia|]. rewrite Nat.sub_succ, Nat.sub_0_r. unfold be_bytes. cbn [le_bytes rev]. f_equal; [|f_equal; now apply N.mod_small].
    rewrite N.div_small by exact Hv. clear. induction n as [|n IH]; [reflexivity|]. cbn [le_bytes rev]. rewrite N.div_small by reflexivity. rewrite IH. change (0 mod 256)%N with 0%N.
    symmetry. apply repeat_cons.
  Qed.
  Lemma be_zeros n : be_bytes n 0 = repeat 0%N n.
  Proof. unfold be_bytes. induction n as [|n IH]; [reflexivity|]. cbn [le_bytes rev]. rewrite N.div_small by reflexivity. rewrite IH. change (0 mod 256)%N with 0%N. symmetry. apply repeat_cons. Qed.
  Lemma nonce_ok : blk bs nonce.
  Proof. unfold nonce, omac_k. apply blk_cmac. apply bytes_app. split; [apply bytes_be_bytes|exact Biv]. Qed.
  Lemma ks_ok i : (ks i < 256)%N.
  Proof.
    unfold ks, ks_byte. apply nth_byte_lt. destruct nonce_ok as [Ln Bn]. assert (B0 : blk bs ctr0).
    { apply blk_pad; [now apply bytes_firstn|]. rewrite firstn_length, Ln. fold bs in Liv. lia. }
    apply HF. now apply ctr_at_blk.
  Qed.
  Definition eax_stream_ok (st : ctr c) : Prop := forall inp s out, session (ctr_crypt c) st inp s out -> out = xor_ks ks 0 inp /\ call_safe (ctr_crypt c) 1 s.
  Lemma lib_ks i : lib_ctr_ks c b ctr0 i = ks i.
  Proof.
    unfold lib_ctr_ks, ks, ks_byte. fold bs. destruct nonce_ok as [Ln Bn]. assert (B0 : blk bs ctr0) by (apply blk_pad; [now apply bytes_firstn|rewrite firstn_length, Ln; lia]).
    destruct (HF _ (ctr_at_blk bs ctr0 (i / bs) B0 Hbs)) as [E _]. unfold fn. now rewrite E.
  Qed.
  Lemma lib_out inp out (A : Prop) : out = xor_ks (lib_ctr_ks c b ctr0) 0 inp /\ A -> out = xor_ks ks 0 inp /\ A.
  Proof. intros [-> H]. split; [|exact H]. apply xor_ks_ext. intros j _. apply lib_ks. Qed.
  (** an object that [ax_fill] has filled *)
  Lemma eax_filled iv0 m0 mkstream mkhead st : om_block c m0 = b -> mac_gives (omac_desc c) (Ok m0) (at_most bs) (fun _ => True) (cmac bs F R) ->
    mac_gives (omac_desc c) mkhead (at_most bs) (fun _ => True) (cmac bs F R) -> mkstream (firstn (length iv) nonce) = Ok st -> eax_stream_ok st ->
    exists s0, ax_fill (ctr_stream c) (omac_desc c) bs iv0 m0 r key iv bs mkstream mkhead = Ok s0 /\ ax_stream _ _ s0 = st  /\
      ae_works (eax_desc c) s0 (fun _ => True) (fun _ => True) (fun n => n <= length iv) (fun hdr ct n => firstn n (eax_tag bs F R iv hdr ct)).
  Proof.
    intros Pb G0 GH Hst Sok. pose proof nonce_ok as Bn.
    assert (EN : cmac bs F R (repeat 0%N bs ++ iv) = nonce) by (unfold nonce, omac_k; now rewrite be_zeros).
    destruct (fill_ok (ctr_stream c) (omac_desc c) (fun m => om_block c m = b) bs iv0 m0 r key iv bs mkstream mkhead (at_most bs) (at_most bs) (fun _ => True) (cmac bs F R) (cmac bs F R) 0 st) as (s0 & E & Est & Ecap & Eiv & Gc & Gh).
    - intros s x s' Ps E. now rewrite (om_input_keeps c x s s' E).
    - intros s n s' t Ps E. now rewrite (om_tag_keeps c s n s' t E).
    - exact Pb.
    - exact G0.
    - intros s Ps. apply (omac_regives c s r key bs b F R); try assumption. rewrite Ps. unfold recreate_ok in Rk. now rewrite Rk.
    - exact GH.
    - exact Hbs.
    - exact Biv.
    - exact Liv.
    - unfold at_most. cbn. lia.
    - unfold at_most. cbn. lia.
    - exact (fun _ _ => I).
    - now apply cmac_digests.
    - rewrite EN. exact Hst.
    - exists s0. split; [exact E|]. split; [exact Est|]. rewrite EN in Eiv.
      assert (Lni : length (firstn (length iv) nonce) = length iv) by (rewrite firstn_length, (proj1 Bn); lia).
      assert (Fiv : forall n, n <= length iv -> firstn n (ax_iv _ _ s0) = firstn n nonce).
      { intros n Hn. rewrite Eiv, firstn_app, Lni, firstn_firstn, Nat.min_l by exact Hn. replace (n - length iv) with 0 by lia. cbn [firstn]. apply app_nil_r. }
      assert (D : forall v n, n <= length iv -> digests n (fun _ => True) (fun m => cmac bs F R (tagged bs v ++ m)) \/ (256 <= v)%N).
      { intros v n Hn. destruct (N.lt_ge_cases v 256) as [Hv|Hv]; [left|now right]. intros m Bm _. destruct (blk_cmac (tagged bs v ++ m)) as [L B].
        - apply bytes_app. split; [exact (proj1 (tagged_ok bs iv bs Hbs Liv v Hv))|exact Bm].
        - split; [exact B|lia]. }
      assert (Wk : stream_works (ctr_stream c) (fun _ => True) (ax_stream _ _ s0)).
      { rewrite Est. apply (ks_works (ctr_stream c) _ st ks eq_refl ks_ok). intros inp s out S. destruct (Sok inp s out S) as [E1 E2]. split; [exact E1|]. intros m src dst len Hm _ Hb Hi. now apply E2. }
      pose proof (ax_works (ctr_stream c) (omac_desc c) 1 s0 (at_most bs) (fun _ => True) (fun _ => True) (fun _ => True) _ _ Wk (fun x _ => Nat.mod_1_r x) Gc Gh (fun n => n <= length iv)) as AW.
      eapply ae_works_ext; [apply AW|intros l _; split; exact I|auto|auto|].
      + intros n Hn. split; [unfold at_most; cbn; lia|]. split; [rewrite Eiv, app_length, Lni; lia|]. split; [rewrite Ecap; lia|].
        split; [destruct (D 2%N n Hn) as [D2|D2]; [exact D2|lia]|destruct (D 1%N n Hn) as [D2|D2]; [exact D2|lia]].
      + exists 0. unfold at_most. cbn. lia.
      + intros n Hn. rewrite (Fiv n Hn). apply bytes_firstn, Bn.
      + intros hdr ct n Hn. unfold ax_value, eax_tag. rewrite (Fiv n Hn), !xor_firstn. f_equal; [|unfold omac_k; now rewrite be_tag].
        rewrite xor_comm. f_equal. unfold omac_k. now rewrite be_tag.
  Qed.
  Lemma stream_created : exists st, ctr_create c r key (firstn (length iv) nonce) = Ok st /\ eax_stream_ok st.
  Proof.
    destruct nonce_ok as [Ln Bn]. assert (L : length (firstn (length iv) nonce) = length iv) by (rewrite firstn_length, Ln; lia).
    assert (E : exists st, ctr_create c r key (firstn (length iv) nonce) = Ok st).
    { unfold ctr_create. rewrite assert_true by (apply args_ok; [destruct Hk as [_ [? ?]]; lia|rewrite L; exact Liv]). rewrite Es. cbn [bind]. now eexists. }
    destruct E as (st & E). exists st. split; [exact E|]. intros inp s out S. apply lib_out. exact (ctr_crypts_lib c r key _ b Es W (bytes_firstn _ _ Bn) st s inp out E S).
  Qed.
  Lemma ae_args n : n <= bs -> ae_args_ok (eax_desc c) key iv n = true.
  Proof.
    intros Hn. unfold ae_args_ok. cbn [ae_maxkey ae_maxiv ae_maxtag eax_desc]. destruct Hk as (_ & K1 & K2). fold bs.
    rewrite (proj2 (Nat.ltb_lt _ _) H0), !(proj2 (N.leb_le _ _)) by lia. now apply Nat.leb_le.
  Qed.
  Theorem eax_create_ok n : n <= bs -> exists s0, ae_create (eax_desc c) r key iv n = Ok s0 /\ eax_stream_ok (ax_stream _ _ s0) /\
      ae_works (eax_desc c) s0 (fun _ => True) (fun _ => True) (fun n => n <= length iv) (fun hdr ct n => firstn n (eax_tag bs F R iv hdr ct)).
  Proof.
    intros Hn. destruct stream_created as (st & E1 & Sok). destruct (omac_computes c r key bs b F R Es H0 HF HR (le_n _)) as [G _].
    destruct (gives_ok _ _ _ _ _ 0 G ltac:(unfold at_most; cbn; lia) I) as (m0 & Em). pose proof G as G0. rewrite Em in G0.
    destruct (eax_filled [] m0 (ctr_create c r key) (mac_create (omac_desc c) r key bs) st (om_create_block c r key bs b m0 Es Em) G0 G E1 Sok) as (s0 & E & Est & Wk).
    exists s0. split; [|split; [rewrite Est; exact Sok|exact Wk]]. unfold ae_create. rewrite assert_true by (now apply ae_args). cbn [ae_mk eax_desc]. unfold eax_create. fold bs. rewrite Em. cbn [bind]. rewrite Em in E. exact E.
  Qed.
  (** an old object *)
  Theorem eax_recreate_ok n (s : axst (ctr_stream c) (omac_desc c)) : n <= bs ->
    recreate_ok c (om_block c (ax_mac _ _ s)) r key -> recreate_ok c (om_block c (ax_header _ _ s)) r key -> recreate_ok c (ctr_blk c (ax_stream _ _ s)) r key ->
    exists s0, ae_recreate (eax_desc c) s r key iv n = Ok s0 /\ eax_stream_ok (ax_stream _ _ s0) /\
      ae_works (eax_desc c) s0 (fun _ => True) (fun _ => True) (fun n => n <= length iv) (fun hdr ct n => firstn n (eax_tag bs F R iv hdr ct)).
  Proof.
    intros Hn R1 R2 R3. unfold recreate_ok in R1, R2. rewrite Es in R1, R2.
    pose proof (omac_regives c _ r key bs b F R R1 H0 HF HR) as G1. pose proof (omac_regives c _ r key bs b F R R2 H0 HF HR) as G2. fold bs in G1, G2.
    destruct (gives_ok _ _ _ _ _ 0 G1 ltac:(unfold at_most; cbn; lia) I) as (m0 & Em). pose proof G1 as G0. rewrite Em in G0.
    destruct nonce_ok as [Ln Bn]. assert (L : length (firstn (length iv) nonce) = length iv) by (rewrite firstn_length, Ln; lia).
    assert (E : exists st, ctr_recreate c (ax_stream _ _ s) r key (firstn (length iv) nonce) = Ok st).
    { unfold ctr_recreate. rewrite assert_true by (apply args_ok; [destruct Hk as [_ [? ?]]; lia|rewrite L; exact Liv]). rewrite R3, Es. cbn [bind]. now eexists. }
    destruct E as (st & E1). assert (Sok : eax_stream_ok st).
    { intros inp q out S. apply lib_out. exact (ctr_rekey_crypts c r key _ b Es W (bytes_firstn _ _ Bn) _ st q inp out R3 E1 S). }
    destruct (eax_filled (ax_iv _ _ s) m0 (ctr_recreate c (ax_stream _ _ s) r key) (mac_recreate (omac_desc c) (ax_header _ _ s) r key bs) st (om_recreate_block c _ r key bs b m0 R1 Em) G0 G2 E1 Sok) as (s0 & E & Est & Wk).
    exists s0. split; [|split; [rewrite Est; exact Sok|exact Wk]]. unfold ae_recreate. rewrite assert_true by (now apply ae_args). cbn [ae_remk eax_desc]. unfold eax_recreate. fold bs.
    destruct (mac_recreate (omac_desc c) (ax_mac _ _ s) r key bs) as [m1|e]; [|discriminate]. apply Ok_inj in Em. subst m1. exact E.
  Qed.
End Eax.

Lemma filled_inv c b r key cap iv0 m0 iv n mkstream mkhead s0 : ax_fill (ctr_stream c) (omac_desc c) cap iv0 m0 r key iv n mkstream mkhead = Ok s0 ->
  om_block c m0 = b -> bc_recreate c b r key = Ok b -> (forall h, mkhead = Ok h -> om_block c h = b) -> (forall x st, mkstream x = Ok st -> ctr_blk c st = b) -> eax_inv c b s0.
Proof.
  unfold ax_fill. intros E Hb Hr Hh Hs.
  destruct (mac_input (omac_desc c) m0 (repeat 0%N n)) as [m1|e] eqn:E1; [|discriminate]. cbn [bind] in E.
  destruct (mac_input (omac_desc c) m1 iv) as [m2|e] eqn:E2; [|discriminate]. cbn [bind] in E.
  destruct (mac_tag (omac_desc c) m2 (length iv)) as [[m3 t]|e] eqn:E3; [|discriminate]. cbn [bind fst snd] in E.
  destruct (iv_write _ _ _) as [niv|e]; [|discriminate]. cbn [bind] in E.
  destruct (mac_recreate (omac_desc c) m3 r key n) as [m4|e] eqn:E4; [|discriminate]. cbn [bind] in E.
  destruct (last_byte n 2) as [b2|e]; [|discriminate]. cbn [bind] in E.
  destruct (mac_input (omac_desc c) m4 b2) as [m5|e] eqn:E5; [|discriminate]. cbn [bind] in E.
  destruct (mkstream _) as [st|e] eqn:E6; [|discriminate]. cbn [bind] in E. destruct mkhead as [h|e]; [|discriminate]. cbn [bind] in E.
  destruct (last_byte n 1) as [b1|e]; [|discriminate]. cbn [bind] in E. destruct (mac_input (omac_desc c) h b1) as [h1|e] eqn:E7; [|discriminate]. cbn [bind] in E. apply Ok_inj in E. subst s0.
  unfold eax_inv. cbn [ax_mac ax_header ax_stream]. rewrite (om_input_keeps c _ _ _ E5), (om_input_keeps c _ _ _ E7), (Hh h eq_refl), (Hs _ _ E6). split; [|auto].
  apply (om_recreate_block c m3 r key n b m4); [|exact E4]. rewrite (om_tag_keeps c _ _ _ _ E3), (om_input_keeps c _ _ _ E2), (om_input_keeps c _ _ _ E1), Hb. exact Hr.
Qed.
Lemma created_inv c b r key iv n s0 : bc_create c r key = Ok b -> recreate_ok c b r key -> ae_create (eax_desc c) r key iv n = Ok s0 -> eax_inv c b s0.
Proof.
  intros Eb Rk E. unfold ae_create in E. apply assert_inv in E. destruct E as [_ E]. cbn [ae_mk eax_desc] in E. unfold eax_create in E.
  destruct (mac_create (omac_desc c) r key (bc_bs c)) as [m0|e] eqn:Em; [|discriminate]. cbn [bind] in E. rewrite <- Em in E.
  apply (filled_inv c b r key _ _ _ _ _ _ _ _ E).
  - exact (om_create_block c r key _ b m0 Eb Em).
  - unfold recreate_ok in Rk. now rewrite Rk.
  - intros h. exact (om_create_block c r key _ b h Eb).
  - intros x st X. cbn [sm_create ctr_stream] in X. unfold ctr_create in X. apply assert_inv in X. destruct X as [_ X]. rewrite Eb in X. cbn [bind] in X. apply Ok_inj in X. now subst st.
Qed.
(** an object that was used in any way, with another key *)
Theorem eax_reuse c b0 r0 key0 iv0 n0 s0 s r key b F R iv n : bc_create c r0 key0 = Ok b0 -> recreate_ok c b0 r0 key0 -> ae_create (eax_desc c) r0 key0 iv0 n0 = Ok s0 -> ae_used (eax_desc c) s0 s ->
  key_ok (bc_maxkey c) key -> bc_create c r key = Ok b -> works c b -> enc_fn c b F -> recreate_ok c b0 r key -> recreate_ok c b r key -> cmac_poly (bc_bs c) = Some R -> bytes_ok iv -> length iv <= bc_bs c -> n <= bc_bs c ->
  exists s1, ae_recreate (eax_desc c) s r key iv n = Ok s1 /\ eax_stream_ok c F R iv (ax_stream _ _ s1) /\
    ae_works (eax_desc c) s1 (fun _ => True) (fun _ => True) (fun n => n <= length iv) (fun hdr ct n => firstn n (eax_tag (bc_bs c) F R iv hdr ct)).
Proof.
  intros Eb0 R0 E0 U Hk Eb W HF Rb0 Rb HR Bi Li Hn. destruct (used_inv c b0 s0 s U (created_inv c b0 r0 key0 iv0 n0 s0 Eb0 R0 E0)) as (A1 & A2 & A3).
  apply (eax_recreate_ok c r key b F R iv Hk Eb W HF Rb HR Bi Li n s Hn); rewrite ?A1, ?A2, ?A3; assumption.
Qed.
