(** Messages with the same tag: HMAC, OMAC, XCBC. *)
From Coq Require Import NArith Arith List Bool Lia.
From Verif Require Import Lib.Res Lib.Bytes Lib.XorBytes Spec.Words Spec.Block Spec.Cipher Spec.Modes Spec.CbcMac Spec.Mac Spec.Hmac Spec.Hash Spec.Hashes Spec.MacColl
  Model.Mem Model.BlockApi Model.HashApi Model.MacApi Model.Omac Model.Hmac Model.Ciphers Proof.ModesBP Proof.CbcMacP Proof.CbcMacPubP Proof.CiphersP Proof.DigestsP Proof.HmacP Proof.HmacPubP Proof.HashesP Proof.DamageP Proof.MdCollP.
Import ListNotations.
Local Open Scope nat_scope.

(** ** CBC MACs *)
Section Chain.
  Variables (bs : nat) (F : list N -> list N).
  Hypothesis Hbs : 0 < bs.
  Hypothesis HF : forall b, blk bs b -> blk bs (F b).
  Hypothesis Hinj : forall a b, blk bs a -> blk bs b -> F a = F b -> a = b.
  Variables (Ka Kb : list N).
  Hypothesis (BKa : blk bs Ka) (BKb : blk bs Kb).

  (** the chain goes on with the blocks of [Z] from the value [c] *)
  Definition chain_on (c : list N) (q : nat) (Z : list N) : list N := fold_left (fun c i => F (xor_bytes c (block bs i Z))) (seq 0 q) c.
  Definition last_in (Z : list N) : list N := let q := (length Z - 1) / bs in let l := skipn (q * bs) Z in
    if length l =? bs then xor_bytes l Ka else xor_bytes (zero_pad bs (l ++ [0x80%N])) Kb.
  Definition tag_on (c Z : list N) : list N := F (xor_bytes (chain_on c ((length Z - 1) / bs) Z) (last_in Z)).

  Lemma on_S c q Z : chain_on c (S q) Z = F (xor_bytes (chain_on c q Z) (block bs q Z)).
  Proof. unfold chain_on. rewrite seq_S, fold_left_app. reflexivity. Qed.
  Lemma blk_on c q Z : blk bs c -> bytes_ok Z -> q * bs <= length Z -> blk bs (chain_on c q Z).
  Proof.
    intros Hc Hz. induction q as [|q IH]; intros H; [exact Hc|]. rewrite on_S. cbn [Nat.mul] in H. apply HF. apply blk_xor; [apply IH; lia|]. apply (CbcMacP.blk_block bs Hbs); [exact Hz|cbn [Nat.mul]; lia].
  Qed.
  Lemma on_inj c c' q Z : blk bs c -> blk bs c' -> bytes_ok Z -> q * bs <= length Z -> chain_on c q Z = chain_on c' q Z -> c = c'.
  Proof.
    intros Hc Hc' Hz. induction q as [|q IH]; intros H E; [exact E|]. rewrite !on_S in E. cbn [Nat.mul] in H.
    assert (B : blk bs (block bs q Z)) by (apply (CbcMacP.blk_block bs Hbs); [exact Hz|cbn [Nat.mul]; lia]).
    assert (B1 : blk bs (chain_on c q Z)) by (apply blk_on; [assumption..|lia]). assert (B2 : blk bs (chain_on c' q Z)) by (apply blk_on; [assumption..|lia]).
    apply Hinj in E; [|now apply blk_xor|now apply blk_xor]. apply xor_inj_r in E; [|destruct B, B1; congruence|destruct B, B2; congruence]. apply IH; [lia|exact E].
  Qed.
  Lemma q_le (Z : list N) : (length Z - 1) / bs * bs <= length Z.
  Proof. pose proof (Nat.mul_div_le (length Z - 1) bs ltac:(lia)). lia. Qed.
  Lemma q_ge (Z : list N) : length Z <= (length Z - 1) / bs * bs + bs.
  Proof. pose proof (Nat.mul_succ_div_gt (length Z - 1) bs ltac:(lia)). lia. Qed.
  Lemma blk_last Z : bytes_ok Z -> blk bs (last_in Z).
  Proof.
    intros Hz. unfold last_in. cbv zeta. pose proof (q_ge Z). rewrite skipn_length. destruct (Nat.eqb_spec (length Z - (length Z - 1) / bs * bs) bs) as [E|E].
    - apply blk_xor; [split; [now rewrite skipn_length|now apply bytes_skipn]|exact BKa].
    - apply blk_xor; [apply (blk_padded bs Hbs); [now apply bytes_skipn|rewrite skipn_length; lia]|exact BKb].
  Qed.
  Lemma tag_on_inj c c' Z : blk bs c -> blk bs c' -> bytes_ok Z -> tag_on c Z = tag_on c' Z -> c = c'.
  Proof.
    intros Hc Hc' Hz E. unfold tag_on in E. pose proof (q_le Z) as Q. pose proof (blk_last Z Hz) as B.
    assert (B1 : blk bs (chain_on c ((length Z - 1) / bs) Z)) by now apply blk_on. assert (B2 : blk bs (chain_on c' ((length Z - 1) / bs) Z)) by now apply blk_on.
    apply Hinj in E; [|now apply blk_xor|now apply blk_xor]. apply xor_inj_r in E; [|destruct B, B1; congruence|destruct B, B2; congruence].
    exact (on_inj c c' _ Z Hc Hc' Hz Q E).
  Qed.
  Lemma block_app k j M Z : length M = k * bs -> block bs (k + j) (M ++ Z) = block bs j Z.
  Proof. intros L. unfold block, slice. f_equal. rewrite skipn_app, L, skipn_all2 by (rewrite L; apply Nat.mul_le_mono_r; lia). cbn [app]. f_equal. rewrite Nat.mul_add_distr_r. lia. Qed.
  Lemma cv_on k j M Z : length M = k * bs -> cbc_value bs F (k + j) (M ++ Z) = chain_on (cbc_value bs F k M) j Z.
  Proof.
    intros L. induction j as [|j IH].
    - rewrite Nat.add_0_r. apply (cv_app bs F Hbs k M Z). lia.
    - rewrite Nat.add_succ_r, (cv_S bs F), IH, (block_app k j M Z L), on_S. reflexivity.
  Qed.
  Lemma mac_on k M Z : length M = k * bs -> Z <> [] -> cbc_mac bs F Ka Kb (M ++ Z) = tag_on (cbc_value bs F k M) Z.
  Proof.
    intros L Nz. assert (0 < length Z) by (destruct Z; [now destruct Nz|cbn; lia]).
    assert (Q : (length (M ++ Z) - 1) / bs = k + (length Z - 1) / bs).
    { rewrite app_length, L. replace (k * bs + length Z - 1) with (length Z - 1 + k * bs) by lia. rewrite Nat.div_add by lia. lia. }
    unfold cbc_mac, tag_on, last_in. cbv zeta. rewrite Q, (cv_on k _ M Z L).
    assert (S : skipn ((k + (length Z - 1) / bs) * bs) (M ++ Z) = skipn ((length Z - 1) / bs * bs) Z).
    { rewrite skipn_app, skipn_all2 by (rewrite L; apply Nat.mul_le_mono_r; lia). cbn [app]. f_equal. rewrite L, Nat.mul_add_distr_r. lia. }
    rewrite S. reflexivity.
  Qed.
  (** whole blocks: the tag tells the chaining value after them *)
  Lemma mac_value k k' M M' : bytes_ok M -> bytes_ok M' -> length M = S k * bs -> length M' = S k' * bs ->
    (cbc_mac bs F Ka Kb M = cbc_mac bs F Ka Kb M' <-> cbc_value bs F (S k) M = cbc_value bs F (S k') M').
  Proof.
    intros B B' L L'.
    assert (V : forall j X, bytes_ok X -> length X = S j * bs -> blk bs (xor_bytes (cbc_value bs F j X) (block bs j X)) /\
      cbc_mac bs F Ka Kb X = F (xor_bytes (xor_bytes (cbc_value bs F j X) (block bs j X)) Ka)).
    { intros j X BX LX. assert (Q : (length X - 1) / bs = j).
      { rewrite LX. cbn [Nat.mul]. replace (bs + j * bs - 1) with (bs - 1 + j * bs) by lia. rewrite Nat.div_add, Nat.div_small by lia. lia. }
      assert (Sk : skipn (j * bs) X = block bs j X). { unfold block, slice. rewrite firstn_all2; [reflexivity|]. rewrite skipn_length, LX. cbn [Nat.mul]. lia. }
      assert (C : blk bs (cbc_value bs F j X)) by (apply (blk_cv bs F Hbs HF); [exact BX|rewrite LX; cbn [Nat.mul]; lia]).
      assert (K : blk bs (block bs j X)) by (apply (CbcMacP.blk_block bs Hbs); [exact BX|lia]).
      split; [now apply blk_xor|]. unfold cbc_mac. cbv zeta. rewrite Q, Sk, (proj1 K), Nat.eqb_refl, xor_assoc. reflexivity. }
    destruct (V k M B L) as [V1 ->]. destruct (V k' M' B' L') as [V2 ->]. rewrite !(cv_S bs F). split; intros E.
    - apply Hinj in E; [|now apply blk_xor|now apply blk_xor]. apply xor_inj_r in E; [now rewrite E|destruct V1, BKa; congruence|destruct V2, BKa; congruence].
    - apply Hinj in E; [now rewrite E|assumption|assumption].
  Qed.
  Theorem mac_extends M M' Z : bytes_ok M -> bytes_ok M' -> bytes_ok Z -> M <> [] -> M' <> [] -> Nat.divide bs (length M) -> Nat.divide bs (length M') ->
    (cbc_mac bs F Ka Kb M = cbc_mac bs F Ka Kb M' <-> cbc_mac bs F Ka Kb (M ++ Z) = cbc_mac bs F Ka Kb (M' ++ Z)).
  Proof.
    intros B B' BZ Nm Nm' [k L] [k' L']. destruct Z as [|z Z]; [now rewrite !app_nil_r|].
    destruct k as [|k]; [destruct M; [now destruct Nm|discriminate]|]. destruct k' as [|k']; [destruct M'; [now destruct Nm'|discriminate]|].
    rewrite (mac_value k k' M M' B B' L L'), (mac_on (S k) M (z :: Z) L), (mac_on (S k') M' (z :: Z) L') by discriminate. split; intros E; [now rewrite E|].
    apply (tag_on_inj _ _ (z :: Z)); [..|exact BZ|exact E]; apply (blk_cv bs F Hbs HF); try assumption; lia.
  Qed.
End Chain.

Lemma gives_same d s bs T M M' : 0 < bs -> mac_gives d s (at_most bs) (fun _ => True) T -> (forall M, bytes_ok M -> blk bs (T M)) -> bytes_ok M -> bytes_ok M' ->
  (same_tag d s bs M M' <-> T M = T M').
Proof.
  intros Hbs G BT B B'.
  assert (R : forall parts, Forall bytes_ok parts -> bytes_ok (concat parts) -> tag_of d s parts [bs] = Ok (T (concat parts))).
  { intros parts Bp Bc. destruct (G parts Bp I) as [G1 _]. specialize (G1 [bs] ltac:(unfold at_most; cbn; lia)). rewrite G1. f_equal. apply firstn_all2. rewrite (proj1 (BT _ Bc)). cbn. lia. }
  assert (R1 : forall X, bytes_ok X -> tag_of d s [X] [bs] = Ok (T X)).
  { intros X BX. pose proof (R [X] (Forall_cons _ BX (Forall_nil _))) as H. cbn [concat] in H. rewrite app_nil_r in H. apply H, BX. }
  split.
  - intros (t & _ & H). assert (C1 : tag_of d s [M] [bs] = Ok t) by (apply H; [constructor; [exact B|constructor]|left; cbn; apply app_nil_r]).
    assert (C2 : tag_of d s [M'] [bs] = Ok t) by (apply H; [constructor; [exact B'|constructor]|right; cbn; apply app_nil_r]).
    rewrite R1 in C1, C2 by assumption. congruence.
  - intros E. exists (T M). split; [apply BT, B|]. intros parts Bp [C|C]; (rewrite R; [|exact Bp|rewrite C; assumption]); rewrite C; [reflexivity|now rewrite E].
Qed.
Lemma gives_extends d s bs T : 0 < bs -> mac_gives d s (at_most bs) (fun _ => True) T -> (forall M, bytes_ok M -> blk bs (T M)) ->
  (forall M M' Z, bytes_ok M -> bytes_ok M' -> bytes_ok Z -> M <> [] -> M' <> [] -> Nat.divide bs (length M) -> Nat.divide bs (length M') -> (T M = T M' <-> T (M ++ Z) = T (M' ++ Z))) ->
  tag_extends d s bs.
Proof.
  intros Hbs G BT X M M' Z B B' BZ N1 N2 D D'. rewrite (gives_same d s bs T M M' Hbs G BT B B').
  rewrite (gives_same d s bs T (M ++ Z) (M' ++ Z) Hbs G BT) by (apply bytes_app; now split). now apply X.
Qed.
Lemma omac_extends c s b F R : works c b -> enc_fn c b F -> mac_gives (omac_desc c) s (at_most (bc_bs c)) (fun _ => True) (cmac (bc_bs c) F R) -> tag_extends (omac_desc c) s (bc_bs c).
Proof.
  intros W HF G. assert (Hbs : 0 < bc_bs c) by apply W. apply (gives_extends _ _ _ _ Hbs G).
  - intros M HM. apply blk_cbc_mac; [exact Hbs|intros; now apply HF|apply blk_double|apply blk_double|exact HM].
  - intros M M' Z B B' BZ N1 N2 D D'. apply mac_extends; [exact Hbs|intros; now apply HF|exact (enc_inj c b F W HF)|apply blk_double|apply blk_double|assumption..].
Qed.
Theorem omac_extend c r key n b R : 0 < length key -> bc_create c r key = Ok b -> works c b -> cmac_poly (bc_bs c) = Some R -> n <= bc_bs c ->
  tag_extends (omac_desc c) (mac_create (omac_desc c) r key n) (bc_bs c).
Proof. intros Hk Es W HR Hn. apply (omac_extends c _ b (fn (bc_enc c b)) R); [exact W|now apply works_fn|]. exact (proj1 (omac_works c r key n b R Hk Es W HR Hn)). Qed.
Theorem omac_extend_re c m r key n b R : 0 < length key -> bc_recreate c (om_block c m) r key = Ok b -> works c b -> cmac_poly (bc_bs c) = Some R ->
  tag_extends (omac_desc c) (mac_recreate (omac_desc c) m r key n) (bc_bs c).
Proof. intros Hk Es W HR. apply (omac_extends c _ b (fn (bc_enc c b)) R); [exact W|now apply works_fn|]. exact (omac_rekeyed c m r key n b R Hk Es W HR). Qed.
Theorem omac_extend_ciphers : Forall (fun c => forall key n, key_ok (bc_maxkey c) key -> n <= bc_bs c -> tag_extends (omac_desc c) (mac_create (omac_desc c) 0 key n) (bc_bs c)) sound_ciphers.
Proof.
  apply Forall_forall. intros c Hc key n Hk Hn. destruct (proj1 (Forall_forall _ _) omac_sound c Hc key n Hk Hn) as (b & R & Es & W & HR & _).
  apply (omac_extend c 0 key n b R); try assumption. apply Hk.
Qed.
Theorem xcbc_extend c r key n s s1 : 0 < length key -> bc_bs c < 256 -> bc_create c r key = Ok s -> works c s ->
  bc_recreate c s r (fn (bc_enc c s) (repeat 1%N (bc_bs c))) = Ok s1 -> works c s1 -> n <= bc_bs c ->
  tag_extends (xcbc_desc c) (mac_create (xcbc_desc c) r key n) (bc_bs c).
Proof.
  intros Hk Hb Es W Er W1 Hn. assert (Hbs : 0 < bc_bs c) by apply W.
  pose proof (xcbc_gives c r key n s s1 _ _ Hk (conj Hbs Hb) Es (works_fn c s W) Er (works_fn c s1 W1) Hn) as [G _].
  assert (K : forall v, (v < 256)%N -> blk (bc_bs c) (fn (bc_enc c s) (repeat v (bc_bs c)))) by (intros v Hv; apply (works_fn c s W), blk_fill, Hv).
  apply (gives_extends _ _ _ _ Hbs G).
  - intros M HM. apply blk_cbc_mac; [exact Hbs|intros; now apply (works_fn c s1 W1)|now apply K|now apply K|exact HM].
  - intros M M' Z B B' BZ N1 N2 D D'. apply mac_extends; [exact Hbs|intros; now apply (works_fn c s1 W1)|exact (enc_inj c s1 _ W1 (works_fn c s1 W1))|now apply K|now apply K|assumption..].
Qed.

(** ** HMAC *)
Lemma length_pad_key B c K : length K <= B -> length (pad_key B c K) = B.
Proof. intros H. unfold pad_key, zero_pad. rewrite length_xor, app_length, !repeat_length. lia. Qed.
Lemma bytes_pad_key B c K : (c < 256)%N -> bytes_ok K -> bytes_ok (pad_key B c K).
Proof. intros Hc H. unfold pad_key, zero_pad. apply bytes_xor; [apply bytes_app; split; [exact H|apply bytes_repeat0]|]. apply Forall_forall. intros x Hx. now rewrite (repeat_spec _ _ _ Hx). Qed.
Definition collides (d : hash) (r : N) (n : nat) (okm : nat -> Prop) (coll : list N -> list N -> Prop) : Prop :=
  forall x x', bytes_ok x -> bytes_ok x' -> okm (length x) -> okm (length x') -> x <> x' -> hash_all d r [] x n = hash_all d r [] x' n -> coll x x'.
Section Hmac.
  Variables (d : hash) (r : N) (n cap : nat) (okm : nat -> Prop) (key m m' : list N).
  Hypothesis U : hash_use d r [] n cap okm.
  Hypothesis (Bk : bytes_ok key) (Lk : 0 < length key) (Kk : length key <= hs_blocksize d \/ n <= hs_blocksize d /\ okm (length key)).
  Hypothesis (Bm : bytes_ok m) (Bm' : bytes_ok m').
  Hypothesis (Om : okm (hs_blocksize d + length m)) (Om' : okm (hs_blocksize d + length m')) (On : okm (hs_blocksize d + n)).
  Hypothesis Ne : m <> m'.
  Lemma hmac_parts : exists K h h' t t', (length key <= hs_blocksize d /\ K = key \/ hs_blocksize d < length key /\ hash_all d r [] key n = Ok K) /\
    let inner := pad_key (hs_blocksize d) ipad K in let outer := pad_key (hs_blocksize d) opad K in
    length inner = hs_blocksize d /\ length outer = hs_blocksize d /\ bytes_ok inner /\ bytes_ok outer /\ blk n h /\ blk n h' /\
    hash_all d r [] (inner ++ m) n = Ok h /\ hash_all d r [] (inner ++ m') n = Ok h' /\ hash_all d r [] (outer ++ h) n = Ok t /\ hash_all d r [] (outer ++ h') n = Ok t' /\
    mac_all (hmac_desc d) r key m n = Ok t /\ mac_all (hmac_desc d) r key m' n = Ok t'.
  Proof using U Bk Lk Kk Bm Bm' Om Om' On.
    destruct (use_digests _ _ _ _ _ _ U) as (H & C & D). pose proof (use_cap _ _ _ _ _ _ U) as L.
    destruct (hmac_full d r n cap okm H key C (digests_weaken _ _ _ _ D L) L Bk Lk Kk) as [[_ A] _].
    rewrite (A m Bm (conj Om On)), (A m' Bm' (conj Om' On)). clear A.
    assert (Ha : forall x, bytes_ok x -> okm (length x) -> hash_all d r [] x n = Ok (firstn n (H x)) /\ bytes_ok (firstn n (H x)) /\ length (firstn n (H x)) = n).
    { intros x Bx Ox. specialize (C [x]). cbn [concat] in C. rewrite app_nil_r in C. destruct (C (Forall_cons _ Bx (Forall_nil _)) Ox) as [_ Hx]. split; [exact Hx|].
      destruct (D x Bx Ox) as [D1 D2]. split; [now apply bytes_firstn|]. rewrite firstn_length. lia. }
    set (B := hs_blocksize d) in *. set (G := fun x => firstn n (H x)) in *. set (K := hmac_key B G key).
    assert (HK : (length key <= B /\ K = key \/ B < length key /\ hash_all d r [] key n = Ok K) /\ bytes_ok K /\ length K <= B).
    { unfold K, hmac_key. destruct (Nat.leb_spec (length key) B) as [Hl|Hl]; [now repeat split; [left|..]|]. destruct Kk as [Kk'|[Kn Ko]]; [lia|].
      destruct (Ha key Bk Ko) as (H1 & H2 & H3). split; [right; now split|]. split; [exact H2|]. unfold G. lia. }
    destruct HK as (HK & BK & LK). set (inner := pad_key B ipad K). set (outer := pad_key B opad K).
    assert (Li : length inner = B) by now apply length_pad_key. assert (Lo : length outer = B) by now apply length_pad_key.
    assert (Bi : bytes_ok inner) by now apply bytes_pad_key. assert (Bo : bytes_ok outer) by now apply bytes_pad_key.
    assert (I1 : forall x, bytes_ok x -> okm (B + length x) -> hash_all d r [] (inner ++ x) n = Ok (G (inner ++ x)) /\ blk n (G (inner ++ x))).
    { intros x Bx Ox. destruct (Ha (inner ++ x)) as (H1 & H2 & H3); [apply bytes_app; now split|rewrite app_length, Li; exact Ox|]. split; [exact H1|now split]. }
    destruct (I1 m Bm Om) as (E1 & B1). destruct (I1 m' Bm' Om') as (E2 & B2).
    assert (O1 : forall x, blk n x -> hash_all d r [] (outer ++ x) n = Ok (G (outer ++ x))).
    { intros x [Lx Bx]. apply Ha; [apply bytes_app; now split|]. rewrite app_length, Lo, Lx. exact On. }
    exists K, (G (inner ++ m)), (G (inner ++ m')), (G (outer ++ G (inner ++ m))), (G (outer ++ G (inner ++ m'))). split; [exact HK|]. cbv zeta. fold inner outer.
    assert (Fn : forall x, firstn n (G x) = G x) by (intros x; unfold G; rewrite firstn_firstn, Nat.min_id; reflexivity).
    exact (conj Li (conj Lo (conj Bi (conj Bo (conj B1 (conj B2 (conj E1 (conj E2 (conj (O1 _ B1) (conj (O1 _ B2) (conj (f_equal Ok (Fn _)) (f_equal Ok (Fn _))))))))))))).
  Qed.
  Theorem hmac_both (coll : list N -> list N -> Prop) : collides d r n okm coll ->
    mac_all (hmac_desc d) r key m n = mac_all (hmac_desc d) r key m' n -> hmac_collides d r n coll key m m'.
  Proof using All.
    intros Hc. destruct hmac_parts as (K & h & h' & t & t' & HK & Li & Lo & Bi & Bo & (Lh & Bh) & (Lh' & Bh') & E1 & E2 & E3 & E4 & -> & ->). intros E.
    exists K, h, h'. split; [exact HK|]. cbv zeta. split; [exact E1|]. split; [exact E2|]. destruct (list_dec h h') as [Eg|Ng].
    - left. apply Hc; [apply bytes_app; now split|apply bytes_app; now split|now rewrite app_length, Li|now rewrite app_length, Li| |rewrite E1, E2; congruence].
      intros Ex. apply app_inv_head in Ex. exact (Ne Ex).
    - right. apply Hc; [apply bytes_app; now split|apply bytes_app; now split|now rewrite app_length, Lo, Lh|now rewrite app_length, Lo, Lh'| |rewrite E3, E4; exact E].
      intros Ex. apply app_inv_head in Ex. exact (Ng Ex).
  Qed.
  Theorem hmac_iff : mac_all (hmac_desc d) r key m n = mac_all (hmac_desc d) r key m' n <-> hmac_collides d r n (same_digest d r n) key m m'.
  Proof using All.
    split.
    - apply hmac_both. intros x x' Bx Bx' Ox Ox' Nx E. split; [exact Nx|]. destruct (use_digests _ _ _ _ _ _ U) as (H & C & _). specialize (C [x]). cbn [concat] in C. rewrite app_nil_r in C.
      destruct (C (Forall_cons _ Bx (Forall_nil _)) Ox) as [_ Hx]. exists (firstn n (H x)). split; [exact Hx|congruence].
    - destruct hmac_parts as (K & h & h' & t & t' & HK & _ & _ & _ & _ & _ & _ & E1 & E2 & E3 & E4 & -> & ->).
      intros (K0 & g & g' & HK0 & G1 & G2 & Hc). assert (K0 = K) as ->.
      { destruct HK as [[H1 ->]|[H1 H2]], HK0 as [[H3 ->]|[H3 H4]]; try lia; [reflexivity|congruence]. }
      rewrite E1 in G1. rewrite E2 in G2. apply Ok_inj in G1, G2. subst g g'. destruct Hc as [[_ (u & U1 & U2)]|[_ (u & U1 & U2)]].
      + rewrite E1 in U1. rewrite E2 in U2. assert (h = h') as Eh by congruence. rewrite Eh in E3. congruence.
      + congruence.
  Qed.
End Hmac.
