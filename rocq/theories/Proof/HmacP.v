(** HMAC, and MACs that hash the key and the message. *)
From Coq Require Import NArith Arith List Bool Lia.
From Verif Require Import Lib.Word Lib.Res Lib.Bytes Lib.Lists Lib.XorBytes Lib.BlockLemmas Spec.Words Spec.Modes Spec.Hash Spec.Mac Spec.Hmac Model.HashApi Model.MacApi Model.Keccak Model.Hmac Proof.MacP.
Import ListNotations.
Local Open Scope N_scope.

Lemma digest_inv d s parts k o : digest d s parts [k] = Ok o ->
  exists s0 s1 s2, s = Ok s0 /\ feed d s0 parts = Ok s1 /\ hash_output d s1 k = Ok (s2, o).
Proof.
  unfold digest. intros H. apply bind_ok in H. destruct H as (s0 & -> & H). apply bind_ok in H. destruct H as (s1 & E1 & H).
  cbn [drain] in H. apply bind_ok in H. destruct H as ([s2 o2] & E2 & H). cbn [bind fst snd] in H. rewrite app_nil_r in H. injection H as ->.
  exists s0, s1, s2. auto.
Qed.
Lemma bytes_parts parts : Forall bytes_ok parts -> bytes_ok (concat parts).
Proof. induction 1; [constructor|]. cbn [concat]. now apply bytes_app. Qed.

(** ** the padded key *)
Lemma pad_xor B c K : (length K <= B)%nat -> map (fun x => N.lxor x c) K ++ repeat c (B - length K) = pad_key B c K.
Proof.
  unfold pad_key, zero_pad, xor_bytes. revert B. induction K as [|x K IH]; intros B H.
  - cbn [length map app]. rewrite Nat.sub_0_r. clear H. induction B as [|B IHB]; [reflexivity|]. cbn. f_equal. rewrite IHB at 1. reflexivity.
  - destruct B as [|B]; [cbn in H; lia|]. cbn. f_equal. apply IH. cbn in H. lia.
Qed.
Lemma pad_turn B K : map (fun x => N.lxor x 0x6A) (pad_key B ipad K) = pad_key B opad K.
Proof.
  unfold pad_key. generalize (zero_pad B K). intros l. revert l. induction B as [|B IH]; intros l; [now destruct l|]. destruct l as [|x l]; [reflexivity|].
  cbn. rewrite IH. f_equal. rewrite N.lxor_assoc. reflexivity.
Qed.
Lemma length_pad_key B c K : (length K <= B)%nat -> length (pad_key B c K) = B.
Proof. intros H. unfold pad_key. rewrite length_xor, repeat_length. unfold zero_pad. rewrite app_length, repeat_length. lia. Qed.
Lemma bytes_pad_key B c K : c < 256 -> bytes_ok K -> bytes_ok (pad_key B c K).
Proof.
  intros Hc HK. unfold pad_key. apply bytes_xor.
  - unfold zero_pad. apply bytes_app. split; [exact HK|]. apply Forall_forall. intros x Hx. apply repeat_spec in Hx. now subst.
  - apply Forall_forall. intros x Hx. apply repeat_spec in Hx. now subst.
Qed.

Section Hmac.
  Variables (d : hash) (r : N) (n len capn capl : nat) (okm : nat -> Prop) (H H' : list N -> list N).
  Let B := hs_blocksize d.
  Hypothesis Hn : computes d r [] n capn okm H.
  Hypothesis Hl : computes d r [] len capl okm H'.
  Hypothesis Dn : digests n okm H.
  Hypothesis Dl : digests len okm H'.
  Hypothesis Llen : (len <= capn)%nat.
  Hypothesis Llen' : (len <= capl)%nat.
  Hypothesis Nlen : digests len okm H.
  Variable key : list N.
  Hypothesis Bk : bytes_ok key.
  Hypothesis Kk : (length key <= B \/ n <= B /\ okm (length key))%nat.
  Let K := hmac_key B (fun m => firstn n (H m)) key.

  Lemma key_part : (if (B <? length key)%nat then let* k := hash_all d r [] key n in if (B <? n)%nat then Err OobWrite else Ok (firstn n k) else Ok key) = Ok K /\
    (length K <= B)%nat /\ bytes_ok K.
  Proof.
    unfold K, hmac_key. destruct (Nat.ltb_spec B (length key)) as [L|L].
    - destruct Kk as [L'|[L1 L2]]; [lia|]. destruct (Hn [key]) as [_ E]; [now constructor|cbn [concat]; now rewrite app_nil_r|].
      cbn [concat] in E. rewrite app_nil_r in E. rewrite E. cbn [bind]. destruct (Nat.ltb_spec B n); [lia|]. rewrite (proj2 (Nat.leb_gt _ _) L).
      rewrite firstn_firstn, Nat.min_id. split; [reflexivity|]. split; [rewrite firstn_length; lia|]. apply bytes_firstn. now apply Dn.
    - rewrite (proj2 (Nat.leb_le _ _) L). auto.
  Qed.
  Lemma hm_feed parts : forall s, mfeed (hmac_desc d) s parts =
    let* h := feed d (hm_hash d s) parts in Ok {| hm_hash := h; hm_r := hm_r d s; hm_key := hm_key d s |}.
  Proof.
    induction parts as [|x parts IH]; intros s; [destruct s; reflexivity|]. cbn [mfeed feed]. unfold mac_input. cbn [mc_input hmac_desc]. unfold hmac_input.
    destruct (hash_input d (hm_hash d s) x) as [h|e]; [|reflexivity]. cbn [bind]. rewrite IH. reflexivity.
  Qed.
  Definition okt (l : nat) : Prop := okm (B + l) /\ okm (B + len).
  Definition tagn (m : list N) : list N := firstn len (H' (pad_key B opad K ++ firstn len (H (pad_key B ipad K ++ m)))).
  Lemma hm_tag (s0 : res (hs_st d)) parts : Forall bytes_ok parts -> okt (length (concat parts)) ->
    digest d s0 (pad_key B ipad K :: parts) [len] = Ok (firstn len (H (pad_key B ipad K ++ concat parts))) ->
    tag_of (hmac_desc d) (let* h := s0 in hmac_init d h r key n) parts [len] = Ok (tagn (concat parts)).
  Proof.
    intros Hb [O1 O2] E. destruct key_part as (EK & LK & BK). apply digest_inv in E. destruct E as (h0 & h1 & h2 & -> & Ef & Eo).
    unfold tag_of. cbn [bind feed] in *. unfold hmac_init. fold B. rewrite EK. cbn [bind]. cbv zeta. rewrite (pad_xor B 0x36 K LK). change 0x36 with ipad.
    destruct (hash_input d h0 (pad_key B ipad K)) as [hi|e]; [|discriminate]. cbn [bind] in *. rewrite hm_feed. cbn [hm_hash hm_r hm_key]. rewrite Ef.
    cbn [bind mtags]. unfold mac_tag. cbn [mc_tag hmac_desc]. unfold hmac_tag. cbn [hm_hash hm_r hm_key]. cbv zeta. rewrite pad_turn, Eo. cbn [bind fst snd].
    assert (BM : bytes_ok (pad_key B ipad K ++ concat parts)) by (apply bytes_app; split; [apply bytes_pad_key; [reflexivity|exact BK]|now apply bytes_parts]).
    destruct (Nlen _ BM) as [BH LH]. { rewrite app_length, length_pad_key by exact LK. exact O1. }
    set (t := firstn len (H (pad_key B ipad K ++ concat parts))) in *.
    assert (Lt : length t = len) by (unfold t; rewrite firstn_length; lia).
    assert (Bt : bytes_ok t) by (unfold t; now apply bytes_firstn).
    destruct (Hl [pad_key B opad K; t]) as [E _].
    { constructor; [apply bytes_pad_key; [reflexivity|exact BK]|now constructor]. }
    { cbn [concat]. rewrite app_nil_r, app_length, length_pad_key, Lt by exact LK. exact O2. }
    destruct (E [len]) as [_ E2]; [cbn; lia|]. specialize (E2 h2). apply digest_inv in E2. destruct E2 as (g0 & g1 & g2 & E0 & E1 & E2).
    rewrite E0. cbn [bind feed] in *. destruct (hash_input d g0 (pad_key B opad K)) as [g|e]; [|discriminate]. cbn [bind] in *.
    destruct (hash_input d g t) as [g'|e]; [|discriminate]. cbn [bind] in *. injection E1 as ->. rewrite E2. cbn [bind fst snd].
    cbn [concat list_sum fold_right]. now rewrite !app_nil_r, Nat.add_0_r.
  Qed.
  Lemma tagn_ok m : bytes_ok m -> okt (length m) -> bytes_ok (tagn m) /\ length (tagn m) = len.
  Proof.
    intros Bm [O1 O2]. destruct key_part as (_ & LK & BK). unfold tagn.
    destruct (Nlen (pad_key B ipad K ++ m)) as [B1 L1]; [apply bytes_app; split; [apply bytes_pad_key; [reflexivity|exact BK]|exact Bm]|rewrite app_length, length_pad_key by exact LK; exact O1|].
    destruct (Dl (pad_key B opad K ++ firstn len (H (pad_key B ipad K ++ m)))) as [B2 L2].
    - apply bytes_app; split; [apply bytes_pad_key; [reflexivity|exact BK]|now apply bytes_firstn].
    - rewrite app_length, length_pad_key by exact LK. rewrite firstn_length, Nat.min_l by exact L1. exact O2.
    - split; [now apply bytes_firstn|]. rewrite firstn_length. lia.
  Qed.
  Lemma hm_gives (s0 : res (hs_st d)) :
    (forall parts, Forall bytes_ok parts -> okt (length (concat parts)) -> digest d s0 (pad_key B ipad K :: parts) [len] = Ok (firstn len (H (pad_key B ipad K ++ concat parts)))) ->
    mac_gives (hmac_desc d) (let* h := s0 in hmac_init d h r key n) (eq [len]) okt tagn.
  Proof.
    intros E. apply gives_intro. intros parts Hb Ho. destruct (tagn_ok (concat parts)) as [BT LT]; [now apply bytes_parts|exact Ho|].
    split; [exact BT|]. split; [intros k Hk; injection Hk as ->; lia|]. intros lens <-. rewrite (hm_tag s0 parts Hb Ho (E parts Hb Ho)).
    cbn [list_sum fold_right]. rewrite Nat.add_0_r, firstn_all2 by lia. reflexivity.
  Qed.
  Lemma ipad_parts parts : Forall bytes_ok parts -> okt (length (concat parts)) -> Forall bytes_ok (pad_key B ipad K :: parts) /\ okm (length (concat (pad_key B ipad K :: parts))).
  Proof.
    intros Hb [O1 _]. destruct key_part as (_ & LK & BK). split; [constructor; [apply bytes_pad_key; [reflexivity|exact BK]|exact Hb]|].
    cbn [concat]. rewrite app_length, length_pad_key by exact LK. exact O1.
  Qed.
  Theorem hmac_gives_create : (0 < length key)%nat -> mac_gives (hmac_desc d) (mac_create (hmac_desc d) r key n) (eq [len]) okt tagn.
  Proof.
    intros Hk. unfold mac_create. rewrite assert_true by (now apply Nat.ltb_lt). cbn [mc_create hmac_desc]. unfold hmac_create. apply hm_gives.
    intros parts Hb Ho. destruct (ipad_parts parts Hb Ho) as [Hb' Ho']. destruct (Hn _ Hb' Ho') as [E _].
    destruct (E [len]) as [E1 _]; [cbn; lia|]. rewrite E1. cbn [list_sum fold_right concat]. now rewrite Nat.add_0_r.
  Qed.
  Theorem hmac_gives_recreate s : (0 < length key)%nat -> mac_gives (hmac_desc d) (mac_recreate (hmac_desc d) s r key n) (eq [len]) okt tagn.
  Proof.
    intros Hk. unfold mac_recreate. rewrite assert_true by (now apply Nat.ltb_lt). cbn [mc_recreate hmac_desc]. unfold hmac_recreate. apply hm_gives.
    intros parts Hb Ho. destruct (ipad_parts parts Hb Ho) as [Hb' Ho']. destruct (Hn _ Hb' Ho') as [E _].
    destruct (E [len]) as [_ E1]; [cbn; lia|]. rewrite E1. cbn [list_sum fold_right concat]. now rewrite Nat.add_0_r.
  Qed.
End Hmac.

(** full tags: RFC 2104 with the first [n] bytes of the hash *)
Definition ok_hmac (B n : nat) (okm : nat -> Prop) (l : nat) : Prop :=
  okm (B + l)%nat /\ okm (B + n)%nat.
Theorem hmac_full d r n cap okm H key : computes d r [] n cap okm H -> digests n okm H -> (n <= cap)%nat -> bytes_ok key ->
  (0 < length key)%nat -> (length key <= hs_blocksize d \/ n <= hs_blocksize d /\ okm (length key))%nat ->
  let T := hmac (hs_blocksize d) (fun m => firstn n (H m)) key in
  let ok := ok_hmac (hs_blocksize d) n okm in
  mac_computes (hmac_desc d) r key n (eq [n]) ok T /\ forall s, mac_gives (hmac_desc d) (mac_recreate (hmac_desc d) s r key n) (eq [n]) ok T.
Proof.
  intros C D L Bk Lk Kk T ok. split.
  - apply computes_of; [|reflexivity]. exact (hmac_gives_create d r n n cap cap okm H H C C D D L L D key Bk Kk Lk).
  - intros s. exact (hmac_gives_recreate d r n n cap cap okm H H C C D D L L D key Bk Kk s Lk).
Qed.
