(** CBC MACs notice every change of a single block. *)
From Coq Require Import NArith Arith List Bool Lia.
From Verif Require Import Lib.Res Lib.Bytes Lib.XorBytes Spec.Words Spec.Block Spec.Cipher Spec.Aes Spec.Modes Spec.CbcMac Spec.Mac Spec.Ae Spec.Damage
  Model.Mem Model.BlockApi Model.MacApi Model.Omac Model.Eax Model.Ciphers Proof.ModesBP Proof.CbcMacP Proof.CbcMacPubP Proof.CiphersP Proof.AeP Proof.AePubP.
Import ListNotations.
Local Open Scope nat_scope.

Lemma nth_block bs M n : 0 < bs -> nth n M 0%N = nth (n mod bs) (block bs (n / bs) M) 0%N.
Proof.
  intros H. unfold block, slice. assert (n mod bs < bs) by (apply Nat.mod_upper_bound; lia).
  assert (G : forall (l : list N) k j, j < k -> nth j (firstn k l) 0%N = nth j l 0%N).
  { induction l as [|x l IH]; intros [|k] [|j] Hj; try lia; try reflexivity. cbn [firstn nth]. apply IH. lia. }
  rewrite G by assumption. assert (S : forall (l : list N) k j, nth j (skipn k l) 0%N = nth (k + j) l 0%N).
  { induction l as [|x l IH]; intros [|k] j; try reflexivity; [now destruct j|]. cbn [skipn Nat.add nth]. apply IH. }
  rewrite S. f_equal. rewrite (Nat.div_mod n bs) at 1 by lia. lia.
Qed.
Lemma blocks_eq bs M M' : 0 < bs -> length M' = length M -> (forall j, block bs j M' = block bs j M) -> M' = M.
Proof. intros H L E. apply (nth_ext _ _ 0%N 0%N); [exact L|]. intros n _. rewrite (nth_block bs M'), (nth_block bs M), E by exact H. reflexivity. Qed.
Lemma xor_inj_l a : forall b c, length b = length a -> length c = length a -> xor_bytes a b = xor_bytes a c -> b = c.
Proof.
  induction a as [|x a IH]; intros [|y b] [|z c] Hb Hc E; try discriminate; [reflexivity|]. cbn [xor_bytes] in E. injection E as E1 E2. f_equal.
  - apply (f_equal (N.lxor x)) in E1. now rewrite <- !N.lxor_assoc, !N.lxor_nilpotent, !N.lxor_0_l in E1.
  - apply IH; [now injection Hb|now injection Hc|exact E2].
Qed.
Lemma xor_inj_r a b c : length b = length a -> length c = length a -> xor_bytes b a = xor_bytes c a -> b = c.
Proof. intros Hb Hc E. rewrite (xor_comm b), (xor_comm c) in E. exact (xor_inj_l a b c Hb Hc E). Qed.
Lemma app_tail_inj (a b c : list N) : a ++ c = b ++ c -> a = b.
Proof. apply app_inv_tail. Qed.
Lemma zero_pad_inj n a b : length a = length b -> zero_pad n a = zero_pad n b -> a = b.
Proof. unfold zero_pad. intros L E. rewrite L in E. exact (app_tail_inj _ _ _ E). Qed.

Section Chain.
  Variables (bs : nat) (F : list N -> list N).
  Hypothesis Hbs : 0 < bs.
  Hypothesis HF : forall b, blk bs b -> blk bs (F b).
  Hypothesis Hinj : forall a b, blk bs a -> blk bs b -> F a = F b -> a = b.

  Lemma cv_same q M M' : (forall j, j < q -> block bs j M' = block bs j M) -> cbc_value bs F q M' = cbc_value bs F q M.
  Proof. induction q as [|q IH]; intros H; [reflexivity|]. rewrite !cv_S, IH, H by (intros; try apply H; lia). reflexivity. Qed.
  Lemma cv_differs i M M' : bytes_ok M -> bytes_ok M' -> length M' = length M -> block bs i M' <> block bs i M -> (forall j, j <> i -> block bs j M' = block bs j M) ->
    forall q, i < q -> q * bs <= length M -> cbc_value bs F q M' <> cbc_value bs F q M.
  Proof.
    intros B B' L D Hj q. induction q as [|q IH]; intros Hi Hq; [lia|]. rewrite !cv_S. intros E.
    assert (C : blk bs (cbc_value bs F q M)) by (apply blk_cv; [assumption..|cbn [Nat.mul] in Hq; lia]).
    assert (C' : blk bs (cbc_value bs F q M')) by (apply blk_cv; [assumption..|rewrite L; cbn [Nat.mul] in Hq; lia]).
    assert (K : blk bs (block bs q M)) by (apply (blk_block bs Hbs); [assumption|exact Hq]).
    assert (K' : blk bs (block bs q M')) by (apply (blk_block bs Hbs); [assumption|rewrite L; exact Hq]).
    apply Hinj in E; [|apply blk_xor; assumption..]. destruct (Nat.eq_dec i q) as [Eq|Ne].
    - apply D. rewrite Eq. rewrite (cv_same q M M') in E by (intros j Hjq; apply Hj; lia). apply xor_inj_l in E; [exact E|destruct K', C; congruence|destruct K, C; congruence].
    - rewrite (Hj q) in E by lia. apply xor_inj_r in E; [|destruct K, C'; congruence|destruct K, C; congruence].
      apply (IH ltac:(lia) ltac:(cbn [Nat.mul] in Hq; lia) E).
  Qed.
  Lemma blk_padded l : bytes_ok l -> length l < bs -> blk bs (zero_pad bs (l ++ [0x80%N])).
  Proof.
    intros B L. unfold zero_pad. split; [rewrite !app_length, repeat_length; cbn [length]; lia|]. apply bytes_app. split; [|apply bytes_repeat0].
    apply bytes_app. split; [exact B|]. constructor; [reflexivity|constructor].
  Qed.
  Theorem cbc_mac_differs Ka Kb M M' : blk bs Ka -> blk bs Kb -> bytes_ok M -> bytes_ok M' -> one_block_changed bs M M' -> cbc_mac bs F Ka Kb M' <> cbc_mac bs F Ka Kb M.
  Proof.
    intros BKa BKb B B' (L & Ne & i & Hj). unfold cbc_mac. rewrite L. set (q := (length M - 1) / bs).
    assert (Hq : q * bs <= length M) by (pose proof (Nat.mul_div_le (length M - 1) bs ltac:(lia)) as H; fold q in H; lia).
    assert (Hr : length M <= q * bs + bs).
    { pose proof (Nat.mul_succ_div_gt (length M - 1) bs ltac:(lia)) as H. fold q in H. lia. }
    assert (EL : forall X : list N, length X = length M -> skipn (q * bs) X = block bs q X).
    { intros X LX. unfold block, slice. rewrite firstn_all2; [reflexivity|]. rewrite skipn_length. lia. }
    rewrite (EL M eq_refl), (EL M' L).
    assert (Hl : length (block bs q M) = length M - q * bs) by (rewrite <- (EL M eq_refl), skipn_length; reflexivity).
    assert (Hl' : length (block bs q M') = length M - q * bs) by (rewrite <- (EL M' L), skipn_length, L; reflexivity).
    assert (D : block bs i M' <> block bs i M).
    { intros E. apply Ne. apply (blocks_eq bs); [exact Hbs|exact L|]. intros j. destruct (Nat.eq_dec j i) as [-> |Hne]; [exact E|exact (Hj j Hne)]. }
    assert (Hi : i <= q).
    { destruct (Nat.le_gt_cases i q) as [H|H]; [exact H|]. exfalso. apply D.
      assert (Z : forall X : list N, length X = length M -> block bs i X = []).
      { intros X LX. unfold block, slice. rewrite skipn_all2; [apply firstn_nil|]. rewrite LX. apply Nat.le_trans with (1 := Hr). replace (q * bs + bs) with (S q * bs) by (cbn; lia). apply Nat.mul_le_mono_r. lia. }
      rewrite (Z M eq_refl), (Z M' L). reflexivity. }
    assert (C : blk bs (cbc_value bs F q M)) by (apply blk_cv; assumption).
    assert (C' : blk bs (cbc_value bs F q M')) by (apply blk_cv; [assumption..|rewrite L; exact Hq]).
    assert (Bb : bytes_ok (block bs q M)) by (rewrite <- (EL M eq_refl); now apply bytes_skipn).
    assert (Bb' : bytes_ok (block bs q M')) by (rewrite <- (EL M' L); now apply bytes_skipn).
    rewrite Hl, Hl'.
    set (g := fun l : list N => if length M - q * bs =? bs then xor_bytes l Ka else xor_bytes (zero_pad bs (l ++ [128%N])) Kb).
    change (F (xor_bytes (cbc_value bs F q M') (g (block bs q M'))) <> F (xor_bytes (cbc_value bs F q M) (g (block bs q M)))).
    assert (Bg : forall l, bytes_ok l -> length l = length M - q * bs -> blk bs (g l)).
    { intros l Bl Ll. unfold g. destruct (Nat.eqb_spec (length M - q * bs) bs) as [E|E].
      - apply blk_xor; [split; [congruence|exact Bl]|exact BKa].
      - apply blk_xor; [apply blk_padded; [exact Bl|lia]|exact BKb]. }
    assert (Ig : forall l l', bytes_ok l -> bytes_ok l' -> length l = length M - q * bs -> length l' = length M - q * bs -> g l = g l' -> l = l').
    { intros l l' Bl Bl' Ll Ll' Eg. unfold g in Eg. destruct (Nat.eqb_spec (length M - q * bs) bs) as [E|E].
      - destruct BKa as [LK _]. apply xor_inj_r in Eg; [exact Eg|congruence|congruence].
      - destruct BKb as [LK _]. apply xor_inj_r in Eg; [|rewrite LK; apply (blk_padded l Bl); lia|rewrite LK; apply (blk_padded l' Bl'); lia].
        apply zero_pad_inj in Eg; [|rewrite !app_length; cbn [length]; lia]. apply app_inv_tail in Eg. exact Eg. }
    intros E. apply Hinj in E; [|apply blk_xor; [assumption|apply Bg; assumption]..].
    pose proof (Bg _ Bb Hl) as [G1 _]. pose proof (Bg _ Bb' Hl') as [G2 _]. destruct C as [C1 _]. destruct C' as [C2 _].
    destruct (Nat.eq_dec i q) as [Eq|Hne].
    - rewrite (cv_same q M M') in E by (intros j Hjq; apply Hj; lia). apply xor_inj_l in E; [|congruence|congruence]. apply Ig in E; try assumption. apply D. rewrite Eq. exact E.
    - rewrite (Hj q) in E by lia. apply xor_inj_r in E; [|congruence|congruence]. revert E. apply (cv_differs i); try assumption. lia.
  Qed.
  Lemma blk_cbc_mac Ka Kb M : blk bs Ka -> blk bs Kb -> bytes_ok M -> blk bs (cbc_mac bs F Ka Kb M).
  Proof.
    intros BKa BKb B. unfold cbc_mac. set (q := (length M - 1) / bs).
    assert (Hq : q * bs <= length M) by (pose proof (Nat.mul_div_le (length M - 1) bs ltac:(lia)) as H; fold q in H; lia).
    assert (Hr : length M <= q * bs + bs).
    { pose proof (Nat.mul_succ_div_gt (length M - 1) bs ltac:(lia)) as H. fold q in H. lia. }
    apply HF. apply blk_xor; [now apply blk_cv|]. rewrite skipn_length. destruct (Nat.eqb_spec (length M - q * bs) bs) as [E|E].
    - apply blk_xor; [split; [now rewrite skipn_length|now apply bytes_skipn]|exact BKa].
    - apply blk_xor; [apply blk_padded; [now apply bytes_skipn|rewrite skipn_length; lia]|exact BKb].
  Qed.
End Chain.

Lemma enc_inj c s F : works c s -> enc_fn c s F -> forall a b, blk (bc_bs c) a -> blk (bc_bs c) b -> F a = F b -> a = b.
Proof.
  intros (_ & U & _) HF a b Ha Hb E. destruct (HF a Ha) as [Ea _]. destruct (HF b Hb) as [Eb _]. rewrite <- E in Eb.
  destruct (U a (proj1 Ha) (proj2 Ha)) as (x & Ex & _ & _ & Dx). destruct (U b (proj1 Hb) (proj2 Hb)) as (y & Ey & _ & _ & Dy).
  rewrite Ea in Ex. rewrite Eb in Ey. rewrite Ex in Ey. apply Ok_inj in Ey. rewrite Ey in Dx. rewrite Dy in Dx. apply Ok_inj in Dx. congruence.
Qed.
Lemma gives_notices d s bs T : 0 < bs -> mac_gives d s (at_most bs) (fun _ => True) T -> (forall M, bytes_ok M -> blk bs (T M)) ->
  (forall M M', bytes_ok M -> bytes_ok M' -> one_block_changed bs M M' -> T M' <> T M) -> mac_notices d bs s.
Proof.
  intros Hbs G BT DT parts parts' B B' C.
  assert (Bc : forall p, Forall bytes_ok p -> bytes_ok (concat p)).
  { intros p Hp. induction Hp as [|x p Hx _ IH]; [constructor|]. cbn [concat]. apply bytes_app. now split. }
  destruct (G parts B I) as [T1 _]. destruct (G parts' B' I) as [T2 V2].
  assert (S1 : forall M, bytes_ok M -> firstn (list_sum [bs]) (T M) = T M).
  { intros M HM. apply firstn_all2. rewrite (proj1 (BT M HM)). cbn. lia. }
  assert (Lb : at_most bs [bs]) by (unfold at_most; cbn; lia).
  exists (T (concat parts)), (T (concat parts')). specialize (T1 _ Lb). specialize (T2 _ Lb). rewrite S1 in T1, T2 by auto.
  split; [exact T1|]. split; [exact T2|]. assert (L : length (T (concat parts)) = bs) by apply BT, Bc, B. split; [exact L|].
  assert (N : T (concat parts) <> T (concat parts')) by (intros E; exact (DT _ _ (Bc _ B) (Bc _ B') C (eq_sym E))). split; [exact N|].
  destruct (V2 (T (concat parts))) as (v & Ev & Hv).
  - apply BT, Bc, B.
  - intros E. rewrite E in L. cbn in L. lia.
  - now rewrite L.
  - rewrite Ev. f_equal. destruct (N.eq_dec v 0) as [E|E]; [exact E|]. apply Hv in E. exfalso. apply N. rewrite L in E. rewrite E. rewrite <- (S1 (concat parts') (Bc _ B')) at 2. cbn. now rewrite Nat.add_0_r.
Qed.
Lemma omac_notices c s b F R : 0 < bc_bs c -> works c b -> enc_fn c b F -> mac_gives (omac_desc c) s (at_most (bc_bs c)) (fun _ => True) (cmac (bc_bs c) F R) -> mac_notices (omac_desc c) (bc_bs c) s.
Proof.
  intros Hbs W HF G. apply (gives_notices _ _ _ _ Hbs G).
  - intros M HM. apply blk_cbc_mac; [exact Hbs|intros; now apply HF|apply blk_double|apply blk_double|exact HM].
  - intros M M' B B' C. apply cbc_mac_differs; [exact Hbs|intros; now apply HF|exact (enc_inj c b F W HF)|apply blk_double|apply blk_double|exact B|exact B'|exact C].
Qed.
Theorem omac_one_block c r key n b R : 0 < length key -> bc_create c r key = Ok b -> works c b -> cmac_poly (bc_bs c) = Some R -> n <= bc_bs c ->
  mac_notices (omac_desc c) (bc_bs c) (mac_create (omac_desc c) r key n).
Proof. intros Hk Es W HR Hn. apply (omac_notices c _ b (fn (bc_enc c b)) R); [apply W|exact W|now apply works_fn|]. exact (proj1 (omac_works c r key n b R Hk Es W HR Hn)). Qed.
Theorem omac_one_block_re c m r key n b R : 0 < length key -> bc_recreate c (om_block c m) r key = Ok b -> works c b -> cmac_poly (bc_bs c) = Some R ->
  mac_notices (omac_desc c) (bc_bs c) (mac_recreate (omac_desc c) m r key n).
Proof. intros Hk Es W HR. apply (omac_notices c _ b (fn (bc_enc c b)) R); [apply W|exact W|now apply works_fn|]. exact (omac_rekeyed c m r key n b R Hk Es W HR). Qed.
Theorem omac_one_block_ciphers : Forall (fun c => forall key n, key_ok (bc_maxkey c) key -> n <= bc_bs c -> mac_notices (omac_desc c) (bc_bs c) (mac_create (omac_desc c) 0 key n)) sound_ciphers.
Proof.
  apply Forall_forall. intros c Hc key n Hk Hn. destruct (proj1 (Forall_forall _ _) omac_sound c Hc key n Hk Hn) as (b & R & Es & W & HR & _).
  apply (omac_one_block c 0 key n b R); try assumption. apply Hk.
Qed.
Theorem xcbc_one_block c r key n s s1 : 0 < length key -> bc_bs c < 256 -> bc_create c r key = Ok s -> works c s ->
  bc_recreate c s r (fn (bc_enc c s) (repeat 1%N (bc_bs c))) = Ok s1 -> works c s1 -> n <= bc_bs c ->
  mac_notices (xcbc_desc c) (bc_bs c) (mac_create (xcbc_desc c) r key n).
Proof.
  intros Hk Hb Es W Er W1 Hn. assert (Hbs : 0 < bc_bs c) by apply W.
  pose proof (xcbc_gives c r key n s s1 _ _ Hk (conj Hbs Hb) Es (works_fn c s W) Er (works_fn c s1 W1) Hn) as [G _].
  assert (K : forall v, (v < 256)%N -> blk (bc_bs c) (fn (bc_enc c s) (repeat v (bc_bs c)))) by (intros v Hv; apply (works_fn c s W), blk_fill, Hv).
  apply (gives_notices _ _ _ _ Hbs G).
  - intros M HM. apply blk_cbc_mac; [exact Hbs|intros; now apply (works_fn c s1 W1)|now apply K|now apply K|exact HM].
  - intros M M' B B' C. apply cbc_mac_differs; [exact Hbs|intros; now apply (works_fn c s1 W1)|exact (enc_inj c s1 _ W1 (works_fn c s1 W1))|now apply K|now apply K|exact B|exact B'|exact C].
Qed.

(** EAX *)
Lemma prefix_changed bs p M M' : length p = bs -> 0 < bs -> one_block_changed bs M M' -> one_block_changed bs (p ++ M) (p ++ M').
Proof.
  intros Lp Hbs (L & Ne & i & Hj). split; [rewrite !app_length; congruence|]. split; [intros E; apply app_inv_head in E; exact (Ne E)|].
  exists (S i). intros j Hji. assert (Z : forall X : list N, block bs 0 (p ++ X) = p).
  { intros X. unfold block, slice. cbn [Nat.mul skipn]. rewrite firstn_app, Lp, Nat.sub_diag. cbn [firstn]. rewrite app_nil_r. apply firstn_all2. lia. }
  assert (Sx : forall k (X : list N), block bs (S k) (p ++ X) = block bs k X).
  { intros k X. unfold block, slice. f_equal. replace (S k * bs) with (bs + k * bs) by reflexivity. rewrite skipn_app, Lp. rewrite skipn_all2 by lia. cbn [app]. f_equal. lia. }
  destruct j as [|j]; [now rewrite !Z|]. rewrite !Sx. apply Hj. lia.
Qed.
Lemma session_bytes {S} (op : S -> mem -> nat -> nat -> nat -> res (S * mem)) head s hdr inp s' out : ae_session op head s hdr inp s' out -> bytes_ok hdr /\ bytes_ok inp.
Proof. intros H. induction H as [|? ? ? ? ? ? ? ? ? ? ? ? B _ _ [IH1 IH2]|? ? ? ? ? ? ? B _ _ [IH1 IH2]]; [split; constructor|split; [exact IH1|apply bytes_app; now split]|split; [apply bytes_app; now split|exact IH2]]. Qed.
Theorem eax_notices c b F R s0 iv : works c b -> enc_fn c b F -> bytes_ok iv -> length iv = bc_bs c -> eax_object (bc_bs c) F R (eax_desc c) s0 iv -> ae_notices (eax_desc c) (bc_bs c) s0.
Proof.
  intros W HF Bi Li [_ (G1 & G2 & _)] hdr pt s ct hdr' ct' s' pt' E D C. assert (Hbs : 0 < bc_bs c) by apply W.
  destruct (session_bytes _ _ _ _ _ _ _ E) as [Bh _]. destruct (session_bytes _ _ _ _ _ _ _ D) as [Bh' Bc'].
  destruct (G1 hdr pt s ct E) as (Bc & _ & _ & T1). destruct (G2 hdr' ct' s' pt' D) as (_ & T2). specialize (T1 I I). specialize (T2 I I).
  assert (BO : forall t M, bytes_ok M -> blk (bc_bs c) (omac_k (bc_bs c) F R t M)).
  { intros t M HM. apply blk_cbc_mac; [exact Hbs|intros; now apply HF|apply blk_double|apply blk_double|apply bytes_app; split; [apply bytes_be_bytes|exact HM]]. }
  assert (DO : forall t M M', bytes_ok M -> bytes_ok M' -> one_block_changed (bc_bs c) M M' -> omac_k (bc_bs c) F R t M' <> omac_k (bc_bs c) F R t M).
  { intros t M M' B B' H. apply cbc_mac_differs; [exact Hbs|intros; now apply HF|exact (enc_inj c b F W HF)|apply blk_double|apply blk_double| | |].
    - apply bytes_app; split; [apply bytes_be_bytes|exact B].
    - apply bytes_app; split; [apply bytes_be_bytes|exact B'].
    - apply prefix_changed; [unfold be_bytes; now rewrite rev_length, length_le_bytes|exact Hbs|exact H]. }
  assert (BT : forall h x, bytes_ok h -> bytes_ok x -> blk (bc_bs c) (eax_tag (bc_bs c) F R iv h x)).
  { intros h x Hh Hx. unfold eax_tag. apply blk_xor; [apply blk_xor; apply BO; assumption|apply BO; assumption]. }
  destruct (T1 (bc_bs c) ltac:(cbv beta; lia)) as [[s1 Es1] _]. destruct (T2 (bc_bs c) ltac:(cbv beta; lia)) as [_ V].
  assert (FN : forall h x, bytes_ok h -> bytes_ok x -> firstn (bc_bs c) (eax_tag (bc_bs c) F R iv h x) = eax_tag (bc_bs c) F R iv h x).
  { intros h x Hh Hx. apply firstn_all2. rewrite (proj1 (BT h x Hh Hx)). lia. }
  rewrite FN in Es1 by assumption. rewrite FN in V by assumption. set (t := eax_tag (bc_bs c) F R iv hdr ct) in *.
  destruct (BT hdr ct Bh Bc) as [Lt Bt]. fold t in Lt, Bt.
  destruct (V t Bt Lt) as (s2 & v & Ev & Hv). { intros E0. rewrite E0 in Lt. cbn in Lt. lia. }
  exists s1, s2, t. split; [exact Es1|]. split; [exact Lt|]. rewrite Ev. do 2 f_equal. destruct (N.eq_dec v 0) as [Z|Z]; [exact Z|]. exfalso. apply Hv in Z. revert Z. unfold t, eax_tag.
  pose proof (BO 0%N iv Bi) as [L0 _]. pose proof (BO 2%N ct Bc) as [L2 _]. pose proof (BO 2%N ct' Bc') as [L2' _]. pose proof (BO 1%N hdr Bh) as [L1 _]. pose proof (BO 1%N hdr' Bh') as [L1' _].
  destruct C as [[-> C]|[C ->]]; intros Z.
  - apply xor_inj_r in Z; [|rewrite length_xor_bytes; congruence|rewrite length_xor_bytes; congruence]. apply xor_inj_l in Z; [|congruence|congruence]. exact (DO 2%N ct ct' Bc Bc' C (eq_sym Z)).
  - apply xor_inj_l in Z; [|rewrite length_xor_bytes; congruence|rewrite length_xor_bytes; congruence]. exact (DO 1%N hdr hdr' Bh Bh' C (eq_sym Z)).
Qed.
Theorem eax_one_block c r key b F R iv n : key_ok (bc_maxkey c) key -> bc_create c r key = Ok b -> works c b -> enc_fn c b F -> recreate_ok c b r key -> cmac_poly (bc_bs c) = Some R ->
  bytes_ok iv -> length iv = bc_bs c -> n <= bc_bs c -> exists s0, ae_create (eax_desc c) r key iv n = Ok s0 /\ ae_notices (eax_desc c) (bc_bs c) s0.
Proof.
  intros Hk Es W HF Rk HR Bi Li Hn. destruct (eax_made c r key b F R iv Hk Es W HF Rk HR Bi ltac:(lia) n Hn) as (s0 & E & O). exists s0. split; [exact E|].
  exact (eax_notices c b F R s0 iv W HF Bi Li O).
Qed.
Theorem eax_one_block_ciphers : Forall (fun c => forall key iv n, key_ok (bc_maxkey c) key -> bytes_ok iv -> length iv = bc_bs c -> n <= bc_bs c ->
  exists s0, ae_create (eax_desc c) 0 key iv n = Ok s0 /\ ae_notices (eax_desc c) (bc_bs c) s0) sound_ciphers.
Proof.
  apply Forall_forall. intros c Hc key iv n Hk Bi Li Hn. destruct (proj1 (Forall_forall _ _) eax_sound c Hc key iv n Hk Bi ltac:(lia) Hn) as (b & R & s0 & Es & W & HR & E & O).
  exists s0. split; [exact E|]. exact (eax_notices c b _ R s0 iv W (works_fn c b W) Bi Li O).
Qed.
Lemma xcbc_notices c m s F F1 : 0 < bc_bs c -> (forall v, (v < 256)%N -> blk (bc_bs c) (F (repeat v (bc_bs c)))) -> works c s -> enc_fn c s F1 ->
  mac_gives (xcbc_desc c) m (at_most (bc_bs c)) (fun _ => True) (cbc_mac (bc_bs c) F1 (F (repeat 2%N (bc_bs c))) (F (repeat 3%N (bc_bs c)))) -> mac_notices (xcbc_desc c) (bc_bs c) m.
Proof.
  intros Hbs K W HF G. apply (gives_notices _ _ _ _ Hbs G).
  - intros M HM. apply blk_cbc_mac; [exact Hbs|intros; now apply HF|now apply K|now apply K|exact HM].
  - intros M M' B B' C. apply cbc_mac_differs; [exact Hbs|intros; now apply HF|exact (enc_inj c s _ W HF)|now apply K|now apply K|exact B|exact B'|exact C].
Qed.
Lemma xcbc_ok_notices c key n : xcbc_ok c key -> key_ok (bc_maxkey c) key -> n <= bc_bs c -> mac_notices (xcbc_desc c) (bc_bs c) (mac_create (xcbc_desc c) 0 key n).
Proof.
  intros X Hk Hn. destruct (X n Hk Hn) as (s & s1 & _ & W & _ & W1 & G & _).
  apply (xcbc_notices c _ s1 (fn (bc_enc c s)) (fn (bc_enc c s1))); [apply W| |exact W1|now apply works_fn|exact G].
  intros v Hv. apply (works_fn c s W), blk_fill, Hv.
Qed.
Theorem xcbc_one_block_any : Forall (fun c => forall key n, key_ok (bc_maxkey c) key -> n <= bc_bs c -> mac_notices (xcbc_desc c) (bc_bs c) (mac_create (xcbc_desc c) 0 key n))
  [tea_desc; noekeon_desc; rc2_desc; threeway_desc; crax_desc; threefish_desc Model.Threefish.threefish256; threefish_desc Model.Threefish.threefish512; threefish_desc Model.Threefish.threefish1024;
   xtea_desc; rc5_desc; rc6_desc; idea_desc; trax_desc Model.Sparx.trax_m; trax_desc Model.Sparx.trax_l; rectangle_desc;
   gost_desc Model.Gost.gost_cbr; gost_desc Model.Gost.gost_r3412; simon_desc Model.Simon.simon32;
   seed_desc; sm4_desc; skipjack_desc; cast5_desc; des_desc; blowfish_desc; camellia_desc; twofish_desc; serpent_desc; shacal2_desc; khazad_desc].
Proof. apply (Forall_impl _ (fun c (H : forall key, xcbc_ok c key) key n => xcbc_ok_notices c key n (H key)) xcbc_any). Qed.
Theorem xcbc_one_block_keys : Forall (fun c => forall key n, length key = bc_bs c -> key_ok (bc_maxkey c) key -> n <= bc_bs c -> mac_notices (xcbc_desc c) (bc_bs c) (mac_create (xcbc_desc c) 0 key n))
  [lea_desc; simon_desc Model.Simon.simon64; simon_desc Model.Simon.simon128; rijndael128_desc; anubis_desc; aria_desc].
Proof. apply (Forall_impl _ (fun c (H : forall key, length key = bc_bs c -> xcbc_ok c key) key n L => xcbc_ok_notices c key n (H key L)) xcbc_block_keys). Qed.
