(** The Skein MACs. *)
From Coq Require Import NArith Arith List Bool Lia.
From Verif Require Import Lib.Word Lib.Res Lib.Bytes Lib.Bij Lib.Lists Lib.MemLemmas Lib.WordsP Lib.BlockLemmas Spec.Words Spec.Block Spec.Modes Spec.Arx Spec.Hash Spec.Mac Spec.Skein
  Model.LoadStore Model.Mem Model.BlockApi Model.Threefish Model.HashApi Model.MacApi Model.Md Model.BlockBuf Model.Skein Proof.MdP Proof.HashP Proof.BlockBufP Proof.BlakeP
  Proof.ThreefishP Proof.ThreefishPubP Proof.SkeinP Proof.SkeinHashP Proof.MacP.
Import ListNotations.
Local Open Scope N_scope.

(** ** input is byte by byte *)
Lemma skm_input_app p s a b : skm_input p s (a ++ b) = let* s := skm_input p s a in skm_input p s b.
Proof.
  unfold skm_input. rewrite bb_input_app. destruct (bb_input (sk_bs p) (sk_step p (skm_r s)) (skm_b s) a) as [s1|e]; [|reflexivity]. reflexivity.
Qed.
Lemma skm_feed p parts s : mfeed (skein_mac p) s parts = skm_input p s (concat parts).
Proof.
  revert s. induction parts as [|x parts IH]; intros s.
  - destruct s as [a b c]. reflexivity.
  - cbn [mfeed concat]. change (mac_input (skein_mac p) s x) with (skm_input p s x). rewrite skm_input_app.
    destruct (skm_input p s x); [apply IH|reflexivity].
Qed.
Theorem skein_mac_split p s parts lens : tag_of (skein_mac p) s parts lens = tag_of (skein_mac p) s [concat parts] lens.
Proof. unfold tag_of. destruct s as [s|e]; [|reflexivity]. cbn [bind]. rewrite !skm_feed. cbn [concat]. now rewrite app_nil_r. Qed.

Lemma skm_create_start p r key n : (0 < tf_n p)%nat -> skm_create p r key n = skm_start p [] r key n.
Proof. intros H. unfold skm_create. destruct (tf_create_one p r H) as [b ->]. reflexivity. Qed.

(** ** which bytes of the key are used *)
(** keys shorter than a block: the buffer was never written *)
Lemma absorb_uninit p r src s : (0 < length src < sk_bs p)%nat -> bb_buf s = [] -> (length (snd (bb_a s)) = 16)%nat -> nth 0 (snd (bb_a s)) 0 = 0 -> (sk_bs p < 256)%nat -> sk_absorb p r src s = Err Uninit.
Proof.
  intros [H1 H2] Eb Lt E0 H256. unfold sk_absorb. destruct (length src) as [|k] eqn:El; [lia|]. cbn [sk_chunks Nat.eqb].
  replace (part (sk_bs p) (S k)) with (S k) by (unfold part; destruct (Nat.ltb_spec (sk_bs p) (S k)); [lia|reflexivity]).
  assert (P : exists tw, pos_add (snd (bb_a s)) (S k) = Ok tw).
  { unfold pos_add. rewrite E0, byte_mod, N.mod_small by lia. cbn [N.add]. rewrite N.ltb_irrefl. eexists. reflexivity. }
  destruct P as [tw ->]. cbn [bind]. unfold bb_flush. cbn [bb_buf]. rewrite Eb. rewrite skipn_nil, app_nil_r.
  destruct (Nat.ltb_spec (length (repeat 0 (sk_bs p - S k) ++ skipn (sk_bs p - S k) (firstn (S k) src))) (sk_bs p)) as [_|L]; [reflexivity|].
  rewrite app_length, repeat_length, skipn_length, firstn_length in L. lia.
Qed.
Theorem skein_mac_uninit p r key n : skein_par p -> (0 < length key < sk_bs p)%nat -> mac_create (skein_mac p) r key n = Err Uninit.
Proof.
  intros Hp H. destruct (par_n p Hp) as (Hn & H32 & H256). unfold mac_create. rewrite assert_true by (apply Nat.ltb_lt; lia). cbn [mc_create skein_mac].
  rewrite skm_create_start by exact Hn. unfold skm_start. rewrite absorb_uninit; [reflexivity|exact H|reflexivity..|exact H256].
Qed.
(** ... and when it was written, keys of up to half a block are not used *)
Theorem skein_mac_short p s r key key' n : length key = length key' -> (2 * length key <= sk_bs p)%nat ->
  mac_recreate (skein_mac p) s r key n = mac_recreate (skein_mac p) s r key' n.
Proof.
  intros Hl Hs. unfold mac_recreate. rewrite <- Hl. destruct (0 <? length key)%nat; [|reflexivity]. cbn [assert_ mc_recreate skein_mac]. unfold skm_recreate, skm_start.
  rewrite (absorb_short p r key key') by assumption. reflexivity.
Qed.
(** longer keys: only the first block is read *)
Lemma chunks_first p r src src' fuel : firstn (sk_bs p) src = firstn (sk_bs p) src' -> forall left s, sk_chunks p fuel r src left s = sk_chunks p fuel r src' left s.
Proof.
  intros H. induction fuel as [|fuel IH]; intros left s; [reflexivity|]. cbn [sk_chunks]. destruct (left =? 0)%nat; [reflexivity|].
  assert (E : firstn (part (sk_bs p) left) src = firstn (part (sk_bs p) left) src').
  { assert (L : (part (sk_bs p) left <= sk_bs p)%nat) by (unfold part; destruct (Nat.ltb_spec (sk_bs p) left); lia).
    rewrite <- (Nat.min_l _ _ L), <- !firstn_firstn, H. reflexivity. }
  rewrite E. destruct (pos_add _ _) as [tw|e]; [|reflexivity]. cbn [bind]. destruct (bb_flush _ _ _) as [s1|e]; [|reflexivity]. cbn [bind]. apply IH.
Qed.
Lemma absorb_first p r src src' s : length src = length src' -> firstn (sk_bs p) src = firstn (sk_bs p) src' -> sk_absorb p r src s = sk_absorb p r src' s.
Proof. intros Hl H. unfold sk_absorb. rewrite Hl. now apply chunks_first. Qed.
Theorem skein_mac_first p r key key' n : length key = length key' -> firstn (sk_bs p) key = firstn (sk_bs p) key' ->
  mac_create (skein_mac p) r key n = mac_create (skein_mac p) r key' n.
Proof.
  intros Hl H. unfold mac_create. rewrite <- Hl. destruct (0 <? length key)%nat; [|reflexivity]. cbn [assert_ mc_create skein_mac]. unfold skm_create.
  destruct (tf_create p r [0]); [|reflexivity]. cbn [bind]. unfold skm_start. now rewrite (absorb_first p r key key').
Qed.

Section Mac.
  Variables (p : tf_par) (r : N) (E : list N -> list N -> list N -> list N).
  Let bs := sk_bs p.
  Hypothesis Hp : skein_par p.
  Hypothesis HE : forall h tw b, blk bs h -> blk 16 tw -> blk bs b -> sk_process p r (h, tw) b = Ok (xor_bytes (E h tw b) b, tw) /\ blk bs (E h tw b).
  Let Hn := proj1 (par_n p Hp).
  Let H32 := proj1 (proj2 (par_n p Hp)).
  Let H256 := proj2 (proj2 (par_n p Hp)).

  (** key or nonce of one block *)
  Lemma absorb_one h ty src s : blk bs h -> blk bs src -> ty + 64 < 128 -> N.lor (ty + 64) 128 = ty + 64 + 128 -> bb_a s = (h, twk 0 (ty + 64)) ->
    exists s', sk_absorb p r src s = Ok s' /\ bb_a s' = (ubi bs E h src ty, twk (N.of_nat bs) (N.land (ty + 64 + 128) 191)) /\ blk bs (fst (bb_a s')) /\ bb_i s' = 0%nat /\
      bb_buf s' = src ++ skipn bs (bb_buf s).
  Proof.
    intros Hh Hk Ht Ho Ea. unfold sk_absorb. rewrite (proj1 Hk). fold bs in H32, H256. assert (Eb : exists k, bs = S k) by (exists (bs - 1)%nat; lia). destruct Eb as [k Eb].
    assert (Ec : sk_chunks p bs = sk_chunks p (S k)) by now rewrite Eb. rewrite Ec. clear Ec. cbn [sk_chunks].
    fold bs. destruct (Nat.eqb_spec bs 0) as [Z|_]; [lia|].
    replace (part bs bs) with bs by (unfold part; now rewrite Nat.ltb_irrefl). rewrite Nat.sub_diag. cbn [repeat app skipn Nat.eqb].
    rewrite Ea. cbn [fst snd]. rewrite pos_add_ok by (try exact H256; unfold pos_top; change (2 ^ 96) with 79228162514264337593543950336; lia).
    cbn [bind]. rewrite N.add_0_l, final15_twk, Ho. rewrite firstn_all2 by (rewrite (proj1 Hk); apply le_n).
    destruct (proc_ok p r E HE h (N.of_nat bs) (ty + 64 + 128) src Hh ltac:(lia) Hk) as [Ep Bp]. fold bs in Ep, Bp.
    unfold bb_flush. cbn [bb_a bb_buf]. assert (L : (length (src ++ skipn bs (bb_buf s)) <? bs)%nat = false) by (apply Nat.ltb_ge; rewrite app_length, (proj1 Hk); lia).
    rewrite L. rewrite firstn_app, (proj1 Hk), Nat.sub_diag. cbn [firstn]. rewrite app_nil_r, firstn_all2 by (rewrite (proj1 Hk); apply le_n).
    rewrite Ep. cbn [bind bb_a fst snd bb_buf bb_i]. rewrite sk_chunks_0. eexists. split; [reflexivity|]. cbn [bb_a bb_i bb_buf fst snd]. rewrite notfirst15_twk.
    split; [|split; [exact Bp|split; reflexivity]]. f_equal. symmetry. etransitivity; [apply (ubi_one p E H32 H256); fold bs; rewrite (proj1 Hk); apply le_n|]. fold bs.
    unfold ubi_compress. rewrite twk_spec, (proj1 Hk). unfold zero_pad. rewrite (proj1 Hk), Nat.sub_diag. cbn [repeat]. rewrite app_nil_r. reflexivity.
  Qed.
  Lemma absorb_key key buf : blk bs key ->
    exists s', sk_absorb p r key (sk_tw (set15 0x40) (sk_start p buf)) = Ok s' /\ bb_a s' = (ubi bs E (repeat 0 bs) key ty_key, twk (N.of_nat bs) 0x80) /\ blk bs (fst (bb_a s')) /\ bb_i s' = 0%nat.
  Proof.
    intros Hk. destruct (absorb_one (repeat 0 bs) ty_key key (sk_tw (set15 0x40) (sk_start p buf))) as (s' & E1 & A1 & B1 & I1 & _).
    - split; [apply repeat_length|apply bytes_repeat0].
    - exact Hk.
    - reflexivity.
    - reflexivity.
    - reflexivity.
    - exists s'. repeat split; try assumption; apply B1.
  Qed.
  Definition mready (G : list N) (msg : list N) (s : skm) : Prop :=
    blk bs G /\ skm_r s = r /\ skm_f s = false /\ has_read bs (sinv p E G 48 48) msg (skm_b s).
  Lemma minput_ok G msg s l : mready G msg s -> bytes_ok l -> N.of_nat (length (msg ++ l)) < pos_top ->
    exists s', skm_input p s l = Ok s' /\ mready G (msg ++ l) s'.
  Proof.
    intros (BG & Er & Ef & R) Bl Ho. unfold skm_input. rewrite Er. fold bs.
    assert (Hle : forall m k : nat, (m <= k)%nat -> N.of_nat k < pos_top -> N.of_nat m < pos_top) by (intros; lia).
    assert (H0 : (0 < bs)%nat) by (fold bs in H32; lia).
    destruct (bb_input_ok bs H0 (sk_step p r) (sinv p E G 48 48) (fun k => N.of_nat k < pos_top) Hle
      (fun l a b I Hl Hb Hk => sinv_step p r E H32 H256 HE G 48 ltac:(reflexivity) l a b eq_refl I Hl Hb Hk) l msg (skm_b s) R Bl Ho) as (b' & -> & R').
    cbn [bind]. eexists. split; [reflexivity|]. unfold mready. cbn [skm_r skm_f skm_b]. auto.
  Qed.
  Lemma mcreate_ok key n buf : blk bs key -> exists s, skm_start p buf r key n = Ok s /\
    mready (ubi bs E (ubi bs E (repeat 0 bs) key ty_key) (sk_config (mask 32 (8 * N.of_nat n))) ty_cfg) [] s.
  Proof.
    intros Hk. unfold skm_start. destruct (absorb_key key buf Hk) as (s1 & -> & A1 & B1 & I1). cbn [bind]. rewrite len8_gen.
    rewrite A1 in B1. cbn [fst] in B1.
    assert (C : exists s2, sk_cfg p r (le_bytes 8 (mask 32 (8 * N.of_nat n))) s1 = Ok s2 /\
      bb_a s2 = (ubi bs E (ubi bs E (repeat 0 bs) key ty_key) (sk_config (mask 32 (8 * N.of_nat n))) ty_cfg, twk 32 0xC4) /\ blk bs (fst (bb_a s2)) /\ bb_i s2 = 0%nat).
    { destruct (cfg_ok p r E Hp HE (ubi bs E (repeat 0 bs) key ty_key) 0x80 (mask 32 (8 * N.of_nat n)) {| bb_a := (ubi bs E (repeat 0 bs) key ty_key, twk 0 0x80); bb_buf := bb_buf s1; bb_i := bb_i s1 |} B1 eq_refl)
        as (s2 & E2 & A2 & B2 & I2 & _). fold bs in A2, B2. exists s2. split; [|split; [exact A2|split; [exact B2|exact I2]]].
      rewrite <- E2. unfold sk_cfg. rewrite A1. cbn [fst snd bb_a bb_i bb_buf]. rewrite !low_twk by (reflexivity || (fold bs in H256; lia)). reflexivity. }
    destruct C as (s2 & -> & A2 & B2 & I2). cbn [bind]. eexists. split; [reflexivity|].
    rewrite A2 in B2. cbn [fst] in B2. unfold mready. cbn [skm_r skm_f skm_b]. split; [exact B2|]. split; [reflexivity|]. split; [reflexivity|].
    destruct (start_ready p r E Hp _ 0 (sk_tw (fun tw => set15 0x70 (upd tw 0 0)) s2) B2) as (_ & _ & _ & _ & R).
    - unfold sk_tw. rewrite A2. cbn [bb_a fst snd]. rewrite low_twk by reflexivity. now rewrite set15_twk.
    - exact I2.
    - exact R.
  Qed.
  Lemma mfinish_ok G msg s : mready G msg s -> N.of_nat (length msg) < pos_top ->
    exists s', skm_finish p s = Ok s' /\ skm_f s' = true /\ bb_i (skm_b s') = 0%nat /\ blk bs (fst (bb_a (skm_b s'))) /\
      fst (bb_a (skm_b s')) = ubi bs E (ubi_n bs E (S (length msg / bs)) G msg ty_msg) (le_bytes 8 0) ty_out.
  Proof.
    intros (BG & Er & Ef & R) Ho. unfold skm_finish. rewrite Er.
    destruct (last_ok p r E H32 H256 HE G 48 ltac:(reflexivity) msg (skm_b s) eq_refl R Ho) as (s1 & -> & A1 & B1). cbn [bind].
    rewrite A1. cbn [fst snd]. rewrite A1 in B1. cbn [fst] in B1. fold bs in B1.
    assert (E1 : set15 255 (upd (zero12 (twk (N.of_nat (length msg)) (if (length msg <? sk_bs p)%nat then 240 else 176))) 0 8) = twk 8 0xFF).
    { rewrite zero12_twk, low_twk by reflexivity. now rewrite set15_twk. }
    rewrite E1. assert (Bz : blk bs (repeat 0 bs)) by (split; [apply repeat_length|apply bytes_repeat0]).
    destruct (proc_ok p r E HE _ 8 0xFF (repeat 0 bs) B1 ltac:(reflexivity) Bz) as [Ep Bp]. fold bs in Ep, Bp.
    unfold bb_flush. cbn [bb_a bb_buf]. fold bs. rewrite repeat_length, Nat.ltb_irrefl. rewrite firstn_all2 by (rewrite repeat_length; apply le_n).
    rewrite Ep. cbn [bind]. eexists. split; [reflexivity|]. cbn [skm_f skm_b bb_i bb_a fst]. split; [reflexivity|]. split; [reflexivity|]. split; [exact Bp|].
    symmetry. etransitivity; [apply (ubi_one p E H32 H256); cbn [length le_bytes]; fold bs in H32 |- *; lia|]. fold bs.
    unfold ubi_compress. rewrite twk_spec. replace (zero_pad bs (le_bytes 8 0)) with (repeat 0 bs); [reflexivity|].
    unfold zero_pad. change (le_bytes 8 0) with (repeat 0 8). rewrite repeat_length, <- repeat_app. f_equal. fold bs in H32. lia.
  Qed.
  Lemma mtags_done lens : forall s, skm_f s = true -> (bb_i (skm_b s) + list_sum lens <= bs)%nat ->
    mtags (skein_mac p) s lens = Ok (slice (bb_i (skm_b s)) (list_sum lens) (fst (bb_a (skm_b s)))).
  Proof.
    induction lens as [|n lens IH]; intros s Hf Hl; [reflexivity|]. cbn [list_sum fold_right] in *. fold (list_sum lens) in *.
    cbn [mtags]. unfold mac_tag. cbn [mc_tag skein_mac]. unfold skm_tag. rewrite Hf. cbn [bind]. fold bs.
    rewrite (proj2 (Nat.leb_le _ _)) by lia. cbn [assert_ bind fst snd]. rewrite IH.
    - cbn [bind skm_b bb_i bb_a]. f_equal. unfold slice. rewrite firstn_plus. f_equal. rewrite skipn_skipn. f_equal. f_equal. lia.
    - cbn [skm_f]. exact Hf.
    - cbn [skm_b bb_i]. lia.
  Qed.
  Lemma mtags_ready G msg s lens : mready G msg s -> N.of_nat (length msg) < pos_top -> (list_sum lens <= bs)%nat ->
    mtags (skein_mac p) s lens = Ok (firstn (list_sum lens) (ubi bs E (ubi_n bs E (S (length msg / bs)) G msg ty_msg) (le_bytes 8 0) ty_out)) /\
    blk bs (ubi bs E (ubi_n bs E (S (length msg / bs)) G msg ty_msg) (le_bytes 8 0) ty_out).
  Proof.
    intros R Ho Hl. destruct (mfinish_ok G msg s R Ho) as (s1 & E1 & F1 & I1 & B1 & A1). rewrite <- A1. split; [|exact B1].
    destruct lens as [|n lens]; [reflexivity|]. transitivity (mtags (skein_mac p) s1 (n :: lens)).
    - cbn [mtags]. unfold mac_tag. cbn [mc_tag skein_mac]. unfold skm_tag. rewrite (proj1 (proj2 (proj2 R))), F1, E1. reflexivity.
    - rewrite mtags_done by (exact F1 || (rewrite I1; exact Hl)). now rewrite I1.
  Qed.
  (** for every start state and what it becomes with a key of one block *)
  Lemma skein_mac_gives key n buf : blk bs key -> (n <= bs)%nat ->
    mac_gives (skein_mac p) (skm_start p buf r key n) (at_most n) (fun len => N.of_nat len < 2 ^ 96) (fun msg => skein_n bs E (S (length msg / bs)) key n msg).
  Proof.
    intros Hk Hnn. apply gives_intro. intros parts Hb Ho. change (2 ^ 96) with pos_top in Ho.
    destruct (mcreate_ok key n buf Hk) as (s & Es & R).
    assert (Em : mask 32 (8 * N.of_nat n) = 8 * N.of_nat n) by (rewrite mask_mod; apply N.mod_small; fold bs in H256; change (2 ^ 32) with 4294967296; lia). rewrite Em in R.
    destruct (minput_ok _ [] s (concat parts) R) as (s1 & E1 & R1); [now apply bytes_concat|exact Ho|]. cbn [app] in R1.
    set (T := ubi bs E (ubi_n bs E (S (length (concat parts) / bs)) (ubi bs E (ubi bs E (repeat 0 bs) key ty_key) (sk_config (8 * N.of_nat n)) ty_cfg) (concat parts) ty_msg) (le_bytes 8 0) ty_out).
    assert (ET : skein_n bs E (S (length (concat parts) / bs)) key n (concat parts) = firstn n T).
    { unfold skein_n, sk_output. destruct key as [|x key]; [destruct Hk as [Hk _]; cbn in Hk; fold bs in H32; lia|].
      destruct n as [|n]; [reflexivity|]. replace ((S n + bs - 1) / bs)%nat with 1%nat; [cbn [seq flat_map]; rewrite app_nil_r; reflexivity|].
      replace (S n + bs - 1)%nat with (n + 1 * bs)%nat by lia. rewrite Nat.div_add by lia. rewrite Nat.div_small by lia. reflexivity. }
    rewrite ET. destruct (mtags_ready _ (concat parts) s1 [] R1 Ho ltac:(cbn; lia)) as [_ BT]. fold T in BT.
    split; [apply bytes_firstn, BT|]. split; [intros m Hm; unfold at_most in Hm; cbn in Hm; rewrite firstn_length, (proj1 BT); lia|].
    intros lens Hl. unfold at_most in Hl. unfold tag_of. rewrite Es. cbn [bind]. rewrite skm_feed, E1. cbn [bind].
    destruct (mtags_ready _ (concat parts) s1 lens R1 Ho ltac:(lia)) as [X _]. fold T in X. rewrite X. rewrite firstn_firstn, Nat.min_l by exact Hl. reflexivity.
  Qed.
End Mac.
Lemma skein_mac_new p r key n : skein_par p -> (0 < length key)%nat -> mac_create (skein_mac p) r key n = skm_start p [] r key n.
Proof.
  intros Hp H. unfold mac_create. rewrite assert_true by (apply Nat.ltb_lt; exact H). apply skm_create_start. now apply par_n.
Qed.
Theorem skein_mac_computes p E : skein_par p -> spec_of p E -> forall key n, blk (sk_bs p) key -> (n <= sk_bs p)%nat ->
  mac_computes (skein_mac p) 0 key n (at_most n) (fun len => N.of_nat len < 2 ^ 96) (fun msg => skein_n (sk_bs p) E (S (length msg / sk_bs p)) key n msg).
Proof.
  intros Hp HE key n Hk Hn. destruct (par_n p Hp) as (Hn0 & H32 & H256).
  apply computes_of; [|unfold at_most; cbn; lia]. rewrite skein_mac_new by (try exact Hp; rewrite (proj1 Hk); lia). now apply (skein_mac_gives p 0 E Hp HE).
Qed.
Theorem skein_mac_regives p E : skein_par p -> spec_of p E -> forall s key n, blk (sk_bs p) key -> (n <= sk_bs p)%nat ->
  mac_gives (skein_mac p) (mac_recreate (skein_mac p) s 0 key n) (at_most n) (fun len => N.of_nat len < 2 ^ 96) (fun msg => skein_n (sk_bs p) E (S (length msg / sk_bs p)) key n msg).
Proof.
  intros Hp HE s key n Hk Hn. destruct (par_n p Hp) as (Hn0 & H32 & H256). unfold mac_recreate. rewrite assert_true by (apply Nat.ltb_lt; rewrite (proj1 Hk); lia).
  now apply (skein_mac_gives p 0 E Hp HE).
Qed.
Lemma gives_weaken d s okl okm (okm' : nat -> Prop) T T' : mac_gives d s okl okm T -> (forall l, okm' (length l) -> okm (length l) /\ T l = T' l) -> mac_gives d s okl okm' T'.
Proof. intros G H parts Hb Ho. destruct (H _ Ho) as [Ho' E]. destruct (G parts Hb Ho') as [A B]. rewrite <- E. split; assumption. Qed.
Lemma mcomputes_weaken d r key n okl okm (okm' : nat -> Prop) T T' : mac_computes d r key n okl okm T -> (forall l, okm' (length l) -> okm (length l) /\ T l = T' l) -> mac_computes d r key n okl okm' T'.
Proof. intros [G A] H. split; [now apply (gives_weaken _ _ _ okm _ T)|]. intros msg Hb Ho. destruct (H _ Ho) as [Ho' E]. rewrite <- E. now apply A. Qed.
Theorem skein_mac_is p E : skein_par p -> spec_of p E -> forall key n, blk (sk_bs p) key -> (n <= sk_bs p)%nat ->
  mac_computes (skein_mac p) 0 key n (at_most n) (skein_okm (sk_bs p)) (skein (sk_bs p) E key n).
Proof.
  intros Hp HE key n Hk Hn. eapply mcomputes_weaken; [now apply (skein_mac_computes p E)|]. intros l [H1 H2]. split; [exact H1|]. destruct (par_n p Hp) as (_ & H32 & _).
  unfold skein. rewrite <- (same_blocks (sk_bs p)) by (assumption || lia). reflexivity.
Qed.
