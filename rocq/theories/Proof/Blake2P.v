(** What the library computes as BLAKE2: RFC 7693 with one more block when the message is a positive number of whole blocks. *)
From Coq Require Import NArith Arith List Bool Lia.
From Verif Require Import Lib.Word Lib.Res Lib.Bytes Lib.WordSpec Lib.MemLemmas Lib.Lists Lib.WordsP Lib.Bij Model.LoadStore Model.HashApi Model.Md Model.BlockBuf Model.Blake
  Spec.Words Spec.Modes Spec.Hash Spec.Sha2 Spec.Blake Proof.LoadStoreP Proof.MdP Proof.BlakeCoreP Proof.BlockBufP Proof.HashP Proof.ArxP Proof.SpeckPubP Proof.BlakeP.
Import ListNotations.
Local Open Scope N_scope.

Lemma init2_xor iv t0 t1 f : length iv = 8%nat ->
  [nth 0 iv 0; nth 1 iv 0; nth 2 iv 0; nth 3 iv 0; N.lxor (nth 4 iv 0) t0; N.lxor (nth 5 iv 0) t1; N.lxor (nth 6 iv 0) f; nth 7 iv 0] =
  xor_words iv [0; 0; 0; 0; t0; t1; f; 0].
Proof. intros H. explode8 iv H. unfold xor_words. cbn [combine map fst snd nth]. now rewrite !N.lxor_0_r. Qed.
Lemma final2_xor h v : length h = 8%nat -> length v = 16%nat ->
  map (fun i => N.lxor (nth i h 0) (N.lxor (nth i v 0) (nth (i + 8) v 0))) (seq 0 8) = xor_words (xor_words h (firstn 8 v)) (skipn 8 v).
Proof.
  intros Lh Lv. explode8 h Lh. explode16 v Lv. unfold xor_words. cbn [seq map app firstn skipn combine fst snd nth Nat.add].
  repeat (apply f_equal2; [now rewrite !N.lxor_assoc|]). reflexivity.
Qed.
Lemma param_xor n : (n <= 64)%nat -> N.lxor 0x01010000 (N.of_nat n) = 0x01010000 + N.of_nat n.
Proof.
  intros H. assert (E : forallb (fun n => N.lxor 0x01010000 (N.of_nat n) =? 0x01010000 + N.of_nat n) (seq 0 65) = true) by (vm_compute; reflexivity).
  rewrite forallb_forall in E. apply N.eqb_eq. apply E. apply in_seq. lia.
Qed.

Section Blake2.
  Variables (p : blakep) (iv : list N) (F : blake_fn).
  Let w := bl_w F.
  Let k := bl_k F.
  Let bs := (16 * bl_k F)%nat.
  Hypothesis Hw : bp_w p = w.
  Hypothesis Hk : bp_k p = k.
  Hypothesis Hk0 : (0 < k <= 8)%nat.
  Hypothesis Hw32 : 32 <= w.
  Hypothesis Hwk : w = 8 * N.of_nat k.
  Hypothesis Hrot : bp_rot p = bl_rot F.
  Hypothesis Hle : let '(r1, r2, r3, r4) := bl_rot F in r1 <= w /\ r2 <= w /\ r3 <= w /\ r4 <= w.
  Hypothesis Hload : forall b, blk bs b -> bk_block p b = le_words k 16 b.
  Hypothesis Harr : forall h i n, length h = 8%nat -> (i + n <= 8 * k)%nat -> bp_array p h i n = slice i n (le_string k h).
  Hypothesis Hiv : length iv = 8%nat /\ words_ok w iv.
  Hypothesis Hbig : N.of_nat bs < 2 ^ w.
  Definition okm2 (len : nat) : Prop := N.of_nat len < 2 ^ w * 2 ^ w.
  Lemma bs_pos2 : (0 < bs)%nat. Proof. clear - Hk0. unfold bs. fold k. lia. Qed.
  Lemma okm2_le a b : (a <= b)%nat -> okm2 b -> okm2 a. Proof. clear. unfold okm2. intros. lia. Qed.
  Definition goodh2 (h : list N) : Prop := length h = 8%nat /\ words_ok w h.

  Section Fixed.
    Variables (r : N) (h0 : list N).
    Hypothesis Gh0 : goodh2 h0.
    Lemma process2_ok f l0 l1 h b : inw w l0 -> inw w l1 -> goodh2 h -> blk bs b ->
      b2_process p iv r f ((l0, l1), h) b = Ok ((l0, l1), blake2_compress F (N.to_nat r) iv h b (l0 + 2 ^ w * l1) f) /\
      goodh2 (blake2_compress F (N.to_nat r) iv h b (l0 + 2 ^ w * l1) f).
    Proof.
      intros H0 H1 [Lh Wh] Hb. unfold b2_process, blake2_compress. fold w k. rewrite Hload by exact Hb. rewrite Hw.
      assert (E0 : (l0 + 2 ^ w * l1) mod 2 ^ w = l0).
      { rewrite (N.mul_comm _ l1), N.mod_add by (apply N.pow_nonzero; discriminate). apply N.mod_small. exact H0. }
      assert (E1 : (l0 + 2 ^ w * l1) / 2 ^ w = l1).
      { rewrite (N.mul_comm _ l1), N.div_add by (apply N.pow_nonzero; discriminate). rewrite N.div_small by exact H0. reflexivity. }
      rewrite E0, E1. set (m := le_words k 16 b).
      replace (2 ^ w - 1) with (N.ones w) by (rewrite N.ones_equiv; lia).
      rewrite init2_xor by apply Hiv. set (fl := if f then N.ones w else 0).
      assert (Wf : inw w fl) by (unfold fl; destruct f; [apply inw_ones|apply inw_0]).
      set (v0 := h ++ xor_words iv [0; 0; 0; 0; l0; l1; fl; 0]).
      assert (Lx : length (xor_words iv [0; 0; 0; 0; l0; l1; fl; 0]) = 8%nat).
      { unfold xor_words. rewrite map_length, combine_length, (proj1 Hiv). reflexivity. }
      assert (Lv : length v0 = 16%nat) by (unfold v0; rewrite app_length, Lh, Lx; reflexivity).
      assert (Wv : words_ok w v0).
      { apply Forall_app. split; [assumption|]. apply words_xor_words; [apply Hiv|]. repeat constructor; try assumption; apply inw_0. }
      destruct (rounds_mix p F Hw Hrot Hle (fun i j => nth i m 0) r v0 Lv Wv) as (E & L1 & W1). cbv beta in E.
      rewrite <- E. set (v1 := bk_rounds p _ r v0) in *. clearbody v1. clear E.
      split.
      - do 2 f_equal. now apply final2_xor.
      - split.
        + unfold xor_words. rewrite !map_length, !combine_length, !map_length, !combine_length, firstn_length, skipn_length, Lh, L1. reflexivity.
        + rewrite <- (firstn_skipn 8 v1) in W1. apply Forall_app in W1. repeat apply words_xor_words; try apply W1; assumption.
    Qed.
    Let g (h b : list N) (i : nat) : list N := blake2_compress F (N.to_nat r) iv h b (N.of_nat ((i + 1) * bs)) false.
    Definition inv2 (l : list N) (a : bk_acc) : Prop :=
      exists l0 l1, fst a = (l0, l1) /\ inw w l0 /\ inw w l1 /\ l0 + 2 ^ w * l1 = N.of_nat (length l) /\ snd a = chain bs g h0 l /\ goodh2 (snd a).
    Lemma step_inv2 l a b : inv2 l a -> (length l mod bs = 0)%nat -> blk bs b -> okm2 (length l + bs) -> exists a', b2_step p iv r false a b = Ok a' /\ inv2 (l ++ b) a'.
    Proof.
      destruct a as [len h]. intros (l0 & l1 & E & H0 & H1 & Hc & Eh & Gh) Hl Hb Ho. cbn [fst snd] in *. subst len. unfold b2_step. rewrite Hk. cbn [fst snd].
      change (16 * k)%nat with bs.
      destruct (count_ok p (N.of_nat bs) l0 l1) as (m0 & m1 & Ec & M0 & M1 & Em); rewrite ?Hw; try assumption.
      - lia.
      - rewrite Hc. unfold okm2 in Ho. lia.
      - rewrite Hw in *. rewrite Ec. cbn [bind]. destruct (process2_ok false m0 m1 h b M0 M1 Gh Hb) as [Ep Gp]. rewrite Ep. eexists. split; [reflexivity|].
        assert (Em' : m0 + 2 ^ w * m1 = N.of_nat (length (l ++ b))) by (rewrite Em, Hc, app_length, (proj1 Hb); lia).
        exists m0, m1. cbn [fst snd]. split; [reflexivity|]. split; [exact M0|]. split; [exact M1|]. split; [exact Em'|]. split; [|exact Gp].
        rewrite chain_snoc by (apply bs_pos2 || exact Hl || apply Hb). rewrite <- Eh. unfold g. rewrite Em'.
        f_equal. f_equal. rewrite app_length, (proj1 Hb). pose proof bs_pos2.
        rewrite Nat.mul_add_distr_r, Nat.mul_1_l. f_equal. rewrite Nat.mul_comm. apply Nat.div_exact; lia.
    Qed.
    Definition spec_chain2 (msg : list N) : list N := blake2_chain F (extra_block bs (length msg)) (N.to_nat r) iv h0 msg.
    Lemma ready_finish2 msg b : has_read bs inv2 msg b -> okm2 (length msg) ->
      exists b', b2_finish p iv {| b2_r := r; b2_f := false; b2_b := b |} = Ok {| b2_r := r; b2_f := true; b2_b := b' |} /\
        bb_i b' = 0%nat /\ snd (bb_a b') = spec_chain2 msg /\ goodh2 (snd (bb_a b')).
    Proof.
      intros (l & t & -> & Ht & Hl & Bt & (l0 & l1 & El & H0 & H1 & Hc & Eh & Gh) & R) Ho. pose proof bs_pos2 as Hbp.
      unfold b2_finish. cbn [b2_r b2_b]. change (prod (prod N N) (list N)) with bk_acc. rewrite Hk. change (16 * k)%nat with bs.
      rewrite (proj1 R). rewrite El.
      destruct (count_ok p (N.of_nat (length t)) l0 l1) as (m0 & m1 & Ec & M0 & M1 & Em); rewrite ?Hw; try assumption.
      { lia. } { unfold inw. lia. } { rewrite Hc. unfold okm2 in Ho. rewrite app_length in Ho. lia. }
      rewrite Hw in *. rewrite Ec. cbn [bind]. clear Ec El.
      set (L := length (l ++ t)) in *. assert (EL : L = (length l + length t)%nat) by apply app_length.
      assert (Em' : m0 + 2 ^ w * m1 = N.of_nat L) by lia. clear Em Hc.
      set (b0 := {| bb_a := _; bb_buf := _; bb_i := _ |}).
      assert (R0 : rep t b0) by (split; [reflexivity|exact (proj2 R)]). assert (A0 : bb_a b0 = ((m0, m1), snd (bb_a b))) by reflexivity. clearbody b0.
      destruct (zeros_ok (A := bk_acc) bs Hbp bs t b0 R0) as (b1 & -> & R1 & A1); [lia|lia|]. cbn [bind]. rewrite A0 in A1.
      set (h := snd (bb_a b)) in *. clearbody h.
      assert (BB : blk bs (t ++ repeat 0 (bs - length t))).
      { split; [rewrite app_length, repeat_length; lia|]. apply Forall_app. split; [exact Bt|apply bytes_repeat0]. }
      destruct (process2_ok true m0 m1 h _ M0 M1 Gh BB) as [Ep Gp]. rewrite <- A1 in Ep.
      destruct (flush_ok (A := bk_acc) bs (b2_process p iv r true) _ _ b1 (proj2 R1) (proj1 BB) Ep) as (b2 & -> & R2 & A2). cbn [bind].
      exists b2. split; [reflexivity|]. split; [apply R2|]. rewrite A2. cbn [snd]. split; [|exact Gp].
      unfold spec_chain2, blake2_chain, extra_block. fold L. change (16 * bl_k F)%nat with bs.
      assert (Ed : (L / bs = length l / bs)%nat).
      { symmetry. apply (Nat.div_unique L bs _ (length t)); [exact Ht|]. rewrite EL. f_equal. apply Nat.div_exact; lia. }
      assert (EP : zero_pad (S (L / bs) * bs) (l ++ t) = l ++ (t ++ repeat 0 (bs - length t))).
      { unfold zero_pad. fold L. rewrite <- app_assoc. do 2 f_equal. f_equal.
        assert (length l = bs * (length l / bs))%nat by (apply Nat.div_exact; lia). rewrite Ed. cbn [Nat.mul]. rewrite (Nat.mul_comm _ bs). lia. }
      rewrite EP. replace (S (L / bs) - 1)%nat with (length l / bs)%nat by lia.
      rewrite block_app_r by (lia || apply BB || exact Hl).
      f_equal; [|exact Em']. rewrite Eh. unfold chain. apply fold_ext. intros h' i Hi. apply in_seq in Hi. unfold g.
      rewrite block_app_l by lia. reflexivity.
    Qed.
  End Fixed.

  Hypothesis Hwords : forall salt, bytes_ok salt -> (length salt <= 2 * k)%nat -> bp_words p salt 2 = le_words k 2 (zero_pad (2 * k) salt).
  Lemma start2_ok salt n : bytes_ok salt -> (length salt <= 2 * k)%nat -> (n <= 8 * k)%nat ->
    (let sw := bp_words p salt 2 in
     [N.lxor (N.lxor (nth 0 iv 0) 0x01010000) (N.of_nat n); nth 1 iv 0; nth 2 iv 0; nth 3 iv 0;
          N.lxor (nth 4 iv 0) (nth 0 sw 0); N.lxor (nth 5 iv 0) (nth 1 sw 0); nth 6 iv 0; nth 7 iv 0]) = blake2_start F iv salt n /\
    goodh2 (blake2_start F iv salt n).
  Proof.
    intros B L Hn. rewrite Hwords by assumption. unfold blake2_start. fold k. set (sw := le_words k 2 _).
    assert (Ws : words_ok w sw) by (apply le_words_inw; [now apply bytes_zero_pad|exact Hwk]). split.
    - generalize (proj1 Hiv). clear - Hn Hk0. generalize dependent iv. intros v Hv. explode8 v Hv. unfold xor_words. cbn [combine map fst snd nth].
      rewrite N.lxor_assoc, param_xor by lia. now rewrite !N.lxor_0_r.
    - split.
      + unfold xor_words. rewrite map_length, combine_length, (proj1 Hiv). reflexivity.
      + apply words_xor_words; [apply Hiv|]. assert (W0 := words_nth w sw 0 Ws). assert (W1 := words_nth w sw 1 Ws).
        repeat constructor; try apply inw_0; try assumption. apply (inw_mono 32); [exact Hw32|]. unfold inw. change (2 ^ 32) with 4294967296. lia.
  Qed.
  Theorem blake2_computes r salt n : bytes_ok salt -> (length salt <= 2 * k)%nat -> (n <= 8 * k)%nat ->
    computes (b2_hash p iv) r salt n (8 * k) okm2
      (fun l => le_string k (blake2_chain F (extra_block bs (length l)) (N.to_nat (if r =? 0 then bp_r p else r)) iv (blake2_start F iv salt n) l)).
  Proof.
    intros Bs Ls Hn. set (r' := if r =? 0 then bp_r p else r). set (h0 := blake2_start F iv salt n).
    destruct (start2_ok salt n Bs Ls Hn) as [E0 G0]. fold h0 in E0, G0.
    pose (ready := fun msg (q : blake2) => b2_r q = r' /\ b2_f q = false /\ has_read bs (inv2 r' h0) msg (b2_b q)).
    pose (done := fun msg i (q : blake2) => b2_f q = true /\ bb_i (b2_b q) = i /\ snd (bb_a (b2_b q)) = spec_chain2 r' h0 msg /\ goodh2 (snd (bb_a (b2_b q)))).
    assert (Ebs : (16 * bp_k p)%nat = bs) by (rewrite Hk; reflexivity).
    assert (St : forall buf, ready [] (b2_start p iv r salt n buf)).
    { intros buf. unfold b2_start. cbv zeta. cbv zeta in E0. rewrite E0. split; [reflexivity|]. split; [reflexivity|].
      exists [], []. cbn [b2_b bb_a]. split; [reflexivity|]. split; [apply bs_pos2|]. split; [apply Nat.mod_0_l; pose proof bs_pos2; lia|]. split; [constructor|].
      split; [|apply rep_nil]. exists 0, 0. cbn [fst snd]. split; [reflexivity|]. split; [apply inw_0|]. split; [apply inw_0|].
      split; [cbn [length]; lia|]. split; [|exact G0]. unfold chain. cbn [length]. rewrite Nat.div_0_l by (pose proof bs_pos2; lia). reflexivity. }
    assert (In_ : forall msg q l, ready msg q -> bytes_ok l -> okm2 (length (msg ++ l)) -> exists q', b2_input p iv q l = Ok q' /\ ready (msg ++ l) q').
    { intros msg q l (E1 & E2 & R) Bl Ho. unfold b2_input. rewrite E1, E2. rewrite Ebs.
      destruct (bb_input_ok bs bs_pos2 (b2_step p iv r' false) (inv2 r' h0) okm2 okm2_le (step_inv2 r' h0) l msg (b2_b q) R Bl Ho) as (b' & -> & R').
      cbn [bind]. eexists. split; [reflexivity|]. repeat split; try reflexivity. exact R'. }
    assert (Out : forall q i len, b2_f q = true -> bb_i (b2_b q) = i -> goodh2 (snd (bb_a (b2_b q))) -> (i + len <= 8 * k)%nat ->
      exists q', b2_output p iv q len = Ok (q', slice i len (le_string k (snd (bb_a (b2_b q))))) /\ b2_f q' = true /\ bb_i (b2_b q') = (i + len)%nat /\ bb_a (b2_b q') = bb_a (b2_b q)).
    { intros q i len E1 E2 [G1 G2] Hl. unfold b2_output. rewrite E1. cbn [bind]. rewrite E2, Hk, (proj2 (Nat.leb_le _ _) Hl). cbn [assert_].
      eexists. split; [rewrite Harr by assumption; reflexivity|]. cbn [b2_f b2_b bb_i bb_a]. auto. }
    assert (Fin : forall msg q len, ready msg q -> okm2 (length msg) -> (len <= 8 * k)%nat ->
      exists q', b2_output p iv q len = Ok (q', firstn len (le_string k (spec_chain2 r' h0 msg))) /\ done msg len q').
    { intros msg [qr qf qb] len (E1 & E2 & R) Ho Hl. cbn [b2_r b2_f b2_b] in *. subst qr qf.
      destruct (ready_finish2 r' h0 msg qb R Ho) as (b' & Ef & Ib & Eb & Gb).
      destruct (Out {| b2_r := r'; b2_f := true; b2_b := b' |} 0%nat len eq_refl Ib Gb Hl) as (q' & Eo & O' & I' & A').
      exists q'. split.
      - revert Eo. unfold b2_output. cbn [b2_f]. rewrite Ef. cbn [bind b2_b b2_f b2_r].
        intros Eo. rewrite Eo. cbn [b2_b]. rewrite Eb. reflexivity.
      - split; [exact O'|]. split; [exact I'|]. rewrite A'. split; [exact Eb|exact Gb]. }
    apply (computes_intro (b2_hash p iv) r salt n (8 * k) okm2 _ ready done).
    - unfold hash_args_ok, b2_hash. cbn [hs_maxsalt hs_maxout]. rewrite Hk. rewrite (proj2 (N.leb_le _ _)) by lia. cbn [andb]. apply orb_true_iff. right. apply Nat.leb_le. lia.
    - lia.
    - right. cbn [hs_maxout b2_hash]. rewrite Hk. lia.
    - exact okm2_le.
    - eexists. split; [reflexivity|apply St].
    - intros q. eexists. split; [reflexivity|apply St].
    - intros msg q l R _ Bl Ho. exact (In_ msg q l R Bl Ho).
    - intros msg q len R _ Ho Hl. exact (Fin msg q len R Ho Hl).
    - intros msg i q len (D1 & D2 & D3 & D4) _ Hl. destruct (Out q i len D1 D2 D4 Hl) as (q' & Eo & O' & I' & A').
      exists q'. split; [cbn [hs_output b2_hash]; rewrite Eo, D3; reflexivity|]. split; [exact O'|]. split; [exact I'|]. rewrite A'. auto.
    - intros l Bl Ho. cbn [hs_all b2_hash]. destruct (In_ [] _ l (St []) Bl Ho) as (q1 & -> & R1). cbn [bind].
      destruct (Fin l q1 n R1 Ho) as (q2 & -> & _); [lia|]. reflexivity.
  Qed.
End Blake2.

Lemma blake2s_IV_ok : length blake2s_IV = 8%nat /\ words_ok 32 blake2s_IV.
Proof. unfold blake2s_IV. split; [reflexivity|words]. Qed.
Lemma blake2b_IV_ok : length blake2b_IV = 8%nat /\ words_ok 64 blake2b_IV.
Proof. unfold blake2b_IV. split; [reflexivity|words]. Qed.
Theorem blake2s_computes r salt n : bytes_ok salt -> (length salt <= 8)%nat -> (n <= 32)%nat ->
  computes hash_blake2s r salt n 32 (fun len => N.of_nat len < 2 ^ 64) (blake2s_r (extra_block 64) (N.to_nat (if r =? 0 then 10 else r)) salt n).
Proof.
  intros B L Hn. eapply computes_weaken.
  - apply (blake2_computes blake2sp blake2s_IV fb2s); [reflexivity|reflexivity|cbn; lia|cbn; lia|reflexivity|reflexivity|cbn; lia|..|exact B|exact L|exact Hn].
    + intros b Hb. apply (block_words blake2sp le_words 4); [apply length_le_words| |reflexivity|exact Hb]. intros. now apply nth_load32l.
    + intros h i m Hh Hm. cbn [bp_array blake2sp]. change (bl_k fb2s) with 4%nat in *. rewrite store32l_array_eq, stores32l_le; [reflexivity|]. lia.
    + apply blake2s_IV_ok.
    + reflexivity.
    + intros s Bs' Ls'. cbn [bp_words blake2sp bl_k fb2s] in *. apply key32l_words; assumption.
  - cbn. lia.
  - lia.
  - intros x Hx. unfold okm2. change (bl_w fb2s) with 32. rewrite (pow_split 64 32) by reflexivity. exact Hx.
  - intros m j Hj. apply f_equal. unfold blake2s_r. rewrite iv256_ok. reflexivity.
Qed.
Theorem blake2b_computes r salt n : bytes_ok salt -> (length salt <= 16)%nat -> (n <= 64)%nat ->
  computes hash_blake2b r salt n 64 (fun len => N.of_nat len < 2 ^ 128) (blake2b_r (extra_block 128) (N.to_nat (if r =? 0 then 12 else r)) salt n).
Proof.
  intros B L Hn. eapply computes_weaken.
  - apply (blake2_computes blake2bp blake2b_IV fb2b); [reflexivity|reflexivity|cbn; lia|cbn; lia|reflexivity|reflexivity|cbn; lia|..|exact B|exact L|exact Hn].
    + intros b Hb. apply (block_words blake2bp le_words 8); [apply length_le_words| |reflexivity|exact Hb]. intros. now apply nth_load64l.
    + intros h i m Hh Hm. cbn [bp_array blake2bp]. change (bl_k fb2b) with 8%nat in *. rewrite store64l_array_eq, stores64l_le; [reflexivity|]. lia.
    + apply blake2b_IV_ok.
    + reflexivity.
    + intros s Bs' Ls'. cbn [bp_words blake2bp bl_k fb2b] in *. rewrite key64l_loads by assumption. now apply loads64l_le.
  - cbn. lia.
  - lia.
  - intros x Hx. unfold okm2. change (bl_w fb2b) with 64. rewrite (pow_split 128 64) by reflexivity. exact Hx.
  - intros m j Hj. apply f_equal. unfold blake2b_r. rewrite iv512_ok. reflexivity.
Qed.
(** the published number of blocks *)
Lemma extra_block_rfc bs len : (0 < bs)%nat -> (len = 0 \/ len mod bs <> 0)%nat -> extra_block bs len = Nat.max 1 ((len + bs - 1) / bs).
Proof.
  intros Hb H. unfold extra_block. destruct H as [->|H].
  - rewrite Nat.div_0_l by lia. cbn [Nat.add]. rewrite Nat.div_small by lia. reflexivity.
  - pose proof (Nat.div_mod len bs ltac:(lia)) as D. pose proof (Nat.mod_upper_bound len bs ltac:(lia)).
    replace ((len + bs - 1) / bs)%nat with (S (len / bs)); [lia|].
    apply (Nat.div_unique _ bs _ (len mod bs - 1)); [lia|]. rewrite Nat.mul_succ_r. lia.
Qed.
Theorem blake2s_published salt n : bytes_ok salt -> (length salt <= 8)%nat -> (n <= 32)%nat ->
  computes hash_blake2s 0 salt n 32 (fun len => N.of_nat len < 2 ^ 64 /\ (len = 0 \/ len mod 64 <> 0)%nat) (blake2s salt n).
Proof.
  intros B L Hn. eapply computes_ext; [apply blake2s_computes; assumption|now intros x [Hx _]|].
  intros m [_ H]. unfold blake2s, blake2s_r. rewrite extra_block_rfc by (lia || exact H). reflexivity.
Qed.
Theorem blake2b_published salt n : bytes_ok salt -> (length salt <= 16)%nat -> (n <= 64)%nat ->
  computes hash_blake2b 0 salt n 64 (fun len => N.of_nat len < 2 ^ 128 /\ (len = 0 \/ len mod 128 <> 0)%nat) (blake2b salt n).
Proof.
  intros B L Hn. eapply computes_ext; [apply blake2b_computes; assumption|now intros x [Hx _]|].
  intros m [_ H]. unfold blake2b, blake2b_r. rewrite extra_block_rfc by (lia || exact H). reflexivity.
Qed.
