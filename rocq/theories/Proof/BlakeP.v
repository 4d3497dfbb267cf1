(** What the library computes as BLAKE: the published function except for the counter of blocks without message bits. *)
From Coq Require Import NArith Arith List Bool Lia.
From Verif Require Import Lib.Word Lib.Res Lib.Bytes Lib.WordSpec Lib.MemLemmas Lib.Lists Lib.WordsP Lib.Bij Model.LoadStore Model.HashApi Model.Md Model.BlockBuf Model.Blake
  Spec.Words Spec.Modes Spec.Hash Spec.Sha2 Spec.Blake Proof.LoadStoreP Proof.MdP Proof.BlakeCoreP Proof.BlockBufP Proof.HashP Proof.ArxP Proof.SpeckPubP.
Import ListNotations.
Local Open Scope N_scope.

(** ** chaining over the blocks of a string *)
Section Chain.
  Variable bs : nat.
  Hypothesis Hbs : (0 < bs)%nat.
  Definition chain {H : Type} (g : H -> list N -> nat -> H) (h0 : H) (P : list N) : H :=
    fold_left (fun h i => g h (block bs i P) i) (seq 0 (length P / bs)) h0.
  Lemma block_app_l i l b : (i < length l / bs)%nat -> block bs i (l ++ b) = block bs i l.
  Proof.
    intros H. assert (S i * bs <= length l)%nat.
    { transitivity (length l / bs * bs)%nat; [apply Nat.mul_le_mono_r; lia|]. rewrite Nat.mul_comm. apply Nat.mul_div_le. lia. }
    unfold block, slice. rewrite skipn_app, firstn_app, skipn_length.
    replace (bs - (length l - i * bs))%nat with 0%nat by (cbn [Nat.mul] in *; lia). now rewrite firstn_O, app_nil_r.
  Qed.
  Lemma block_app_r l b : (length l mod bs = 0)%nat -> length b = bs -> block bs (length l / bs) (l ++ b) = b.
  Proof.
    intros H Hb. unfold block, slice. replace (length l / bs * bs)%nat with (length l).
    - rewrite skipn_app, skipn_all, Nat.sub_diag. cbn [app skipn]. rewrite <- Hb. apply firstn_all.
    - rewrite Nat.mul_comm. apply Nat.div_exact; lia.
  Qed.
  Lemma fold_ext {H : Type} (f g : H -> nat -> H) is h : (forall h i, In i is -> f h i = g h i) -> fold_left f is h = fold_left g is h.
  Proof. revert h. induction is as [|i is IH]; intros h E; [reflexivity|]. cbn [fold_left]. rewrite E by now left. apply IH. intros. apply E. now right. Qed.
  Lemma chain_snoc {H : Type} g (h0 : H) l b : (length l mod bs = 0)%nat -> length b = bs -> chain g h0 (l ++ b) = g (chain g h0 l) b (length l / bs)%nat.
  Proof.
    intros Hl Hb. unfold chain. rewrite app_length, Hb. replace (length l + bs)%nat with (length l + 1 * bs)%nat by lia.
    rewrite Nat.div_add by lia. rewrite seq_app, fold_left_app. cbn [seq fold_left Nat.add]. rewrite block_app_r by assumption.
    f_equal. apply fold_ext. intros h i Hi. apply in_seq in Hi. rewrite block_app_l by lia. reflexivity.
  Qed.
  Lemma chain_ext {H : Type} g g' (h0 : H) P : (forall h b i, (i < length P / bs)%nat -> g h b i = g' h b i) -> chain g h0 P = chain g' h0 P.
  Proof. intros E. apply fold_ext. intros h i Hi. apply in_seq in Hi. apply E. lia. Qed.
  Lemma mod_app (l b : list N) : (length l mod bs = 0)%nat -> length b = bs -> (length (l ++ b) mod bs = 0)%nat.
  Proof. intros H Hb. rewrite app_length, Hb. replace (length l + bs)%nat with (length l + 1 * bs)%nat by lia. now rewrite Nat.mod_add by lia. Qed.
End Chain.

(** ** the counter *)
Lemma count_ok p n l0 l1 : let w := bp_w p in 0 < w -> inw w l0 -> inw w l1 -> inw w n -> l0 + 2 ^ w * l1 + n < 2 ^ w * 2 ^ w ->
  exists m0 m1, bk_count p n (l0, l1) = Ok (m0, m1) /\ inw w m0 /\ inw w m1 /\ m0 + 2 ^ w * m1 = l0 + 2 ^ w * l1 + n.
Proof.
  intros w Hw H0 H1 Hn B. unfold bk_count. cbn [fst snd]. fold w. unfold inw in *. rewrite !wadd_mod.
  assert (P : 1 < 2 ^ w) by (apply N.pow_gt_1; lia).
  remember (2 ^ w) as T eqn:ET. destruct (N.lt_ge_cases (l0 + n) T) as [L|L].
  - rewrite N.mod_small by exact L. rewrite (proj2 (N.ltb_ge _ _)) by lia. exists (l0 + n), l1. repeat split; lia.
  - assert (E : (l0 + n) mod T = l0 + n - T) by (symmetry; apply (N.mod_unique _ _ 1); lia).
    assert (H2 : l1 + 1 < T) by nia.
    rewrite E, (proj2 (N.ltb_lt _ _)) by lia. rewrite (N.mod_small (l1 + 1)) by exact H2.
    replace (l1 + 1 =? 0) with false by (symmetry; apply N.eqb_neq; lia). cbn [negb assert_].
    exists (l0 + n - T), (l1 + 1). repeat split; lia.
Qed.

Lemma init_xor s K l0 l1 : length s = 4%nat -> length K = 16%nat ->
  [N.lxor (nth 0 K 0) (nth 0 s 0); N.lxor (nth 1 K 0) (nth 1 s 0); N.lxor (nth 2 K 0) (nth 2 s 0); N.lxor (nth 3 K 0) (nth 3 s 0);
   N.lxor (nth 4 K 0) l0; N.lxor (nth 5 K 0) l0; N.lxor (nth 6 K 0) l1; N.lxor (nth 7 K 0) l1] = xor_words (s ++ [l0; l0; l1; l1]) (firstn 8 K).
Proof.
  intros Hs HK. explode4 s Hs. explode16 K HK. unfold xor_words. cbn [app firstn combine map fst snd nth].
  repeat (apply f_equal2; [apply N.lxor_comm|]). reflexivity.
Qed.
Lemma final_xor h s v : length h = 8%nat -> length s = 4%nat -> length v = 16%nat ->
  map (fun i => N.lxor (nth i h 0) (N.lxor (N.lxor (nth i v 0) (nth (i + 8) v 0)) (nth (i mod 4) s 0))) (seq 0 8) =
  xor_words (xor_words (xor_words h (firstn 8 v)) (skipn 8 v)) (s ++ s).
Proof.
  intros Lh Ls Lv. explode8 h Lh. explode4 s Ls. explode16 v Lv.
  unfold xor_words. cbn [seq map app firstn skipn combine fst snd nth Nat.add].
  repeat (apply f_equal2; [cbn; now rewrite !N.lxor_assoc|]). reflexivity.
Qed.

Section Blake.
  Variables (p : blakep) (K : list N) (ivf : nat -> list N) (thr : nat) (F : blake_fn).
  Let w := bl_w F.
  Let k := bl_k F.
  Let bs := (16 * bl_k F)%nat.
  Hypothesis Hw : bp_w p = w.
  Hypothesis Hk : bp_k p = k.
  Hypothesis Hk0 : (0 < k)%nat.
  Hypothesis Hwk : w = 8 * N.of_nat k.
  Hypothesis Hrot : bp_rot p = bl_rot F.
  Hypothesis Hle : let '(r1, r2, r3, r4) := bl_rot F in r1 <= w /\ r2 <= w /\ r3 <= w /\ r4 <= w.
  Hypothesis HK : K = pi_words w.
  Hypothesis HKl : length K = 16%nat.
  Hypothesis HKw : words_ok w K.
  Hypothesis Hload : forall b, blk bs b -> bk_block p b = be_words k 16 b.
  Hypothesis Hstore : forall x, bp_store p x = be_bytes k x.
  Hypothesis Harr : forall h i n, length h = 8%nat -> (i + n <= 8 * k)%nat -> bp_array p h i n = slice i n (be_string k h).
  Hypothesis Hiv : forall n, length (ivf n) = 8%nat /\ words_ok w (ivf n).
  Hypothesis Hbig : N.of_nat (8 * bs) < 2 ^ w.

  Definition okm (len : nat) : Prop := 8 * N.of_nat len < 2 ^ w * 2 ^ w.
  Lemma bs_pos : (0 < bs)%nat. Proof. clear - Hk0. unfold bs. fold k. lia. Qed.
  Lemma okm_le a b : (a <= b)%nat -> okm b -> okm a. Proof. clear. unfold okm. intros. lia. Qed.
  Section Fixed.
    Variables (r : N) (s : list N) (n : nat).
    Hypothesis Hs : length s = 4%nat.
    Hypothesis Hsw : words_ok w s.

    Definition goodh (h : list N) : Prop := length h = 8%nat /\ words_ok w h.
    Lemma process_ok l0 l1 h b : inw w l0 -> inw w l1 -> goodh h -> blk bs b ->
      bk_process p K r s ((l0, l1), h) b = Ok ((l0, l1), blake_compress F (N.to_nat r) s h b (l0 + 2 ^ w * l1)) /\
      goodh (blake_compress F (N.to_nat r) s h b (l0 + 2 ^ w * l1)).
    Proof.
      intros H0 H1 [Lh Wh] Hb. unfold bk_process, blake_compress. fold w k. rewrite Hload by exact Hb. rewrite <- HK.
      assert (E0 : (l0 + 2 ^ w * l1) mod 2 ^ w = l0).
      { rewrite (N.mul_comm _ l1), N.mod_add by (apply N.pow_nonzero; discriminate). apply N.mod_small. exact H0. }
      assert (E1 : (l0 + 2 ^ w * l1) / 2 ^ w = l1).
      { rewrite (N.mul_comm _ l1), N.div_add by (apply N.pow_nonzero; discriminate). rewrite N.div_small by exact H0. reflexivity. }
      rewrite E0, E1. set (m := be_words k 16 b).
      assert (Wm : words_ok w m) by (apply be_words_inw; [apply Hb|exact Hwk]).
      set (v0 := h ++ xor_words (s ++ [l0; l0; l1; l1]) (firstn 8 K)).
      assert (Ev : h ++ [N.lxor (nth 0 K 0) (nth 0 s 0); N.lxor (nth 1 K 0) (nth 1 s 0); N.lxor (nth 2 K 0) (nth 2 s 0); N.lxor (nth 3 K 0) (nth 3 s 0);
        N.lxor (nth 4 K 0) l0; N.lxor (nth 5 K 0) l0; N.lxor (nth 6 K 0) l1; N.lxor (nth 7 K 0) l1] = v0).
      { unfold v0. apply f_equal. now apply init_xor. }
      rewrite Ev.
      assert (Lx : length (xor_words (s ++ [l0; l0; l1; l1]) (firstn 8 K)) = 8%nat).
      { unfold xor_words. rewrite map_length, combine_length, app_length, firstn_length, Hs, HKl. reflexivity. }
      assert (Wx : words_ok w (xor_words (s ++ [l0; l0; l1; l1]) (firstn 8 K))).
      { apply words_xor_words; [apply Forall_app; split; [exact Hsw|repeat constructor; assumption]|].
        clear - HKw. unfold words_ok in *. rewrite <- (firstn_skipn 8 K) in HKw. now apply Forall_app in HKw. }
      assert (Lv : length v0 = 16%nat) by (unfold v0; rewrite app_length, Lh, Lx; reflexivity).
      assert (Wv : words_ok w v0) by (apply Forall_app; split; assumption).
      destruct (rounds_mix p F Hw Hrot Hle (fun i j => N.lxor (nth i m 0) (nth j K 0)) r v0 Lv Wv) as (E & L1 & W1). cbv beta in E.
      rewrite <- E. set (v1 := bk_rounds p _ r v0) in *. clearbody v1. clear E Ev.
      assert (G : goodh (xor_words (xor_words (xor_words h (firstn 8 v1)) (skipn 8 v1)) (s ++ s))).
      { split.
        - unfold xor_words. rewrite !map_length, !combine_length, !map_length, !combine_length, !map_length, !combine_length, app_length, firstn_length, skipn_length, Lh, L1, Hs. reflexivity.
        - rewrite <- (firstn_skipn 8 v1) in W1. apply Forall_app in W1. repeat apply words_xor_words; try apply W1; try assumption.
          apply Forall_app. split; assumption. }
      split; [|exact G]. do 2 f_equal. now apply final_xor.
    Qed.
    (** the value after whole blocks, when more of the message follows *)
    Let g (h b : list N) (i : nat) : list N := blake_compress F (N.to_nat r) s h b (8 * N.of_nat ((i + 1) * bs)).
    Definition inv (l : list N) (a : bk_acc) : Prop :=
      exists l0 l1, fst a = (l0, l1) /\ inw w l0 /\ inw w l1 /\ l0 + 2 ^ w * l1 = 8 * N.of_nat (length l) /\ snd a = chain bs g (ivf n) l /\ goodh (snd a).
    Lemma step_inv l a b : inv l a -> (length l mod bs = 0)%nat -> blk bs b -> okm (length l + bs) -> exists a', bk_step p K r s a b = Ok a' /\ inv (l ++ b) a'.
    Proof.
      destruct a as [len h]. intros (l0 & l1 & E & H0 & H1 & Hc & Eh & Gh) Hl Hb Ho. cbn [fst snd] in *. subst len. unfold bk_step. rewrite Hk. cbn [fst snd].
      change (16 * k)%nat with bs.
      destruct (count_ok p (N.of_nat (8 * bs)) l0 l1) as (m0 & m1 & Ec & M0 & M1 & Em); rewrite ?Hw; try assumption.
      - rewrite Hwk. lia.
      - rewrite Hc. unfold okm in Ho. lia.
      - rewrite Hw in *. rewrite Ec. cbn [bind]. destruct (process_ok m0 m1 h b M0 M1 Gh Hb) as [Ep Gp]. rewrite Ep. eexists. split; [reflexivity|].
        assert (Em' : m0 + 2 ^ w * m1 = 8 * N.of_nat (length (l ++ b))) by (rewrite Em, Hc, app_length, (proj1 Hb); lia).
        exists m0, m1. cbn [fst snd]. split; [reflexivity|]. split; [exact M0|]. split; [exact M1|]. split; [exact Em'|]. split; [|exact Gp].
        rewrite chain_snoc by (apply bs_pos || exact Hl || apply Hb). rewrite <- Eh. unfold g. rewrite Em'.
        do 3 f_equal. rewrite app_length, (proj1 Hb). pose proof bs_pos.
        rewrite Nat.mul_add_distr_r, Nat.mul_1_l. f_equal. rewrite Nat.mul_comm. apply Nat.div_exact; lia.
    Qed.

    (** ** finishing *)
    Lemma last_byte t x (b : bb bk_acc) : hold (t ++ [x]) b -> (length t < bs)%nat ->
      exists b', (let* x := get (bb_buf b) (length t) in let* m := bput bs (bb_buf b) (length t) (N.lxor x 1) in
                  Ok {| bb_a := bb_a b; bb_buf := m; bb_i := bb_i b |}) = Ok b' /\ hold (t ++ [N.lxor x 1]) b' /\ bb_i b' = bb_i b /\ bb_a b' = bb_a b.
    Proof.
      intros [H1 H2] Ht. rewrite app_length in *. cbn [length] in *. rewrite Nat.add_1_r in *.
      assert (Ex : nth (length t) (bb_buf b) 0 = x).
      { rewrite <- (firstn_skipn (S (length t)) (bb_buf b)), H2. rewrite app_nth1 by (rewrite app_length; cbn; lia).
        rewrite app_nth2 by lia. now rewrite Nat.sub_diag. }
      assert (Et : firstn (length t) (bb_buf b) = t).
      { rewrite (firstn_of_firstn _ (S (length t))) by lia. rewrite H2. rewrite firstn_app, firstn_all, Nat.sub_diag. apply app_nil_r. }
      rewrite (get_ok (bb_buf b) (length t) 0) by lia. cbn [bind]. rewrite Ex.
      destruct (bput_ok bs (bb_buf b) (length t) (N.lxor x 1)) as (m & -> & E & L); [exact Ht|lia|]. cbn [bind].
      eexists. split; [reflexivity|]. repeat split; cbn [bb_buf]; rewrite app_length; cbn [length]; rewrite Nat.add_1_r; [exact L|]. now rewrite E, Et.
    Qed.
    Let lenat := (14 * k)%nat.
    Let last := if (thr <? n)%nat then 1 else 0.
    Definition spec_chain (msg : list N) : list N := blake_chain F false (N.to_nat r) s (ivf n) last msg.
    Lemma ready_finish msg b : has_read bs inv msg b -> okm (length msg) ->
      exists b', bk_finish p K thr {| bk_r := r; bk_s := s; bk_o := n; bk_b := b |} = Ok {| bk_r := r; bk_s := s; bk_o := 0; bk_b := b' |} /\
        bb_i b' = 0%nat /\ snd (bb_a b') = spec_chain msg /\ goodh (snd (bb_a b')).
    Proof.
      intros (l & t & -> & Ht & Hl & Bt & (l0 & l1 & El & H0 & H1 & Hc & Eh & Gh) & R) Ho. pose proof bs_pos as Hbp.
      assert (Ebs : bs = (lenat + 2 * k)%nat) by (unfold bs, lenat; fold k; lia).
      unfold bk_finish. cbn [bk_r bk_s bk_o bk_b]. change (prod (prod N N) (list N)) with bk_acc. rewrite Hk. change (16 * k)%nat with bs. fold lenat.
      rewrite (proj1 R). rewrite El.
      destruct (count_ok p (N.of_nat (8 * length t)) l0 l1) as (m0 & m1 & Ec & M0 & M1 & Em); rewrite ?Hw; try assumption.
      { rewrite Hwk. lia. } { unfold inw. lia. } { rewrite Hc. unfold okm in Ho. rewrite app_length in Ho. lia. }
      rewrite Hw in *. rewrite Ec. cbn [bind]. clear Ec El.
      set (L := length (l ++ t)) in *. assert (EL : L = (length l + length t)%nat) by apply app_length.
      assert (Em' : m0 + 2 ^ w * m1 = 8 * N.of_nat L) by lia. clear Em Hc.
      set (b0 := {| bb_a := _; bb_buf := _; bb_i := _ |}).
      assert (R0 : rep t b0) by (split; [reflexivity|exact (proj2 R)]). assert (A0 : bb_a b0 = ((m0, m1), snd (bb_a b))) by reflexivity. clearbody b0.
      destruct (put_ok (A := bk_acc) bs t b0 0x80 R0 Ht) as (b1 & -> & R1 & A1). cbn [bind]. rewrite A0 in A1. clear A0 R0.
      set (h := snd (bb_a b)) in *. clearbody h.
      (* the part of the padding before the length *)
      assert (Hmod : (L mod bs = length t)%nat).
      { rewrite EL, <- Nat.add_mod_idemp_l, Hl by lia. apply Nat.mod_small. exact Ht. }
      assert (Fold : exists l' t' h', (l ++ t ++ (if Nat.eqb (bs - (L + 2 * k) mod bs) 1 then [0x80 + last] else 0x80 :: repeat 0 (bs - (L + 2 * k) mod bs - 2) ++ [last]))
          = l' ++ t' /\ (length l' mod bs = 0)%nat /\ (length l <= length l')%nat /\ length t' = lenat /\ bytes_ok t' /\ goodh h' /\
          h' = chain bs (fun h b i => blake_compress F (N.to_nat r) s h b (blake_counter F false L i)) (ivf n) l' /\
          exists b3, (let* b := if (lenat <? bb_i b1)%nat then let* b := bb_zeros bs bs b1 in bb_flush bs (bk_process p K r s) b else Ok b1 in
            let* b := bb_zeros bs lenat b in
            if (thr <? n)%nat then
                let* x := get (bb_buf b) (lenat - 1) in
                let* m := bput bs (bb_buf b) (lenat - 1) (N.lxor x 1) in
                Ok {| bb_a := bb_a b; bb_buf := m; bb_i := bb_i b |}
              else Ok b) = Ok b3 /\ hold t' b3 /\ bb_i b3 = lenat /\ bb_a b3 = ((m0, m1), h')).
      { assert (Chl : h = chain bs (fun h b i => blake_compress F (N.to_nat r) s h b (blake_counter F false L i)) (ivf n) l).
        { rewrite Eh. apply chain_ext; [exact Hbp|]. intros h' b' i Hi. unfold g. f_equal. unfold blake_counter. cbn [andb].
          rewrite Nat.min_r; [reflexivity|]. fold bs. transitivity (length l / bs * bs)%nat; [apply Nat.mul_le_mono_r; lia|].
          rewrite EL. pose proof (Nat.mul_div_le (length l) bs). lia. }
        (* the last byte *)
        assert (Fin : forall t0 x (b : bb bk_acc), hold (t0 ++ [x]) b -> length (t0 ++ [x]) = lenat -> (x = 0 \/ x = 0x80) ->
          exists b3, (if (thr <? n)%nat then
                let* x := get (bb_buf b) (lenat - 1) in
                let* m := bput bs (bb_buf b) (lenat - 1) (N.lxor x 1) in
                Ok {| bb_a := bb_a b; bb_buf := m; bb_i := bb_i b |}
              else Ok b) = Ok b3 /\ hold (t0 ++ [x + last]) b3 /\ bb_i b3 = bb_i b /\ bb_a b3 = bb_a b).
        { intros t0 x b' Hb' Hlen Hx. rewrite app_length in Hlen. cbn [length] in Hlen. unfold last. destruct (thr <? n)%nat.
          - replace (lenat - 1)%nat with (length t0) by lia. destruct (last_byte t0 x b' Hb') as (b3 & E3 & H3); [lia|].
            exists b3. split; [exact E3|]. replace (x + 1) with (N.lxor x 1) by (destruct Hx as [-> | ->]; reflexivity). exact H3.
          - exists b'. rewrite N.add_0_r. auto. }
        rewrite (proj1 R1), app_length. cbn [length].
        destruct (Nat.ltb_spec lenat (length t + 1)) as [Hc|Hc].
        - (* two more blocks *)
          assert (Ep : ((L + 2 * k) mod bs = length t - lenat)%nat).
          { symmetry. apply (Nat.mod_unique _ _ (S (length l / bs))); [lia|].
            assert (length l = bs * (length l / bs))%nat by (apply Nat.div_exact; lia). rewrite EL. rewrite Nat.mul_succ_r. lia. }
          rewrite Ep. replace (bs - (length t - lenat) =? 1)%nat with false by (symmetry; apply Nat.eqb_neq; lia).
          set (z1 := (bs - (length t + 1))%nat).
          assert (Blk : blk bs (t ++ [0x80] ++ repeat 0 z1)).
          { split; [rewrite !app_length, repeat_length; cbn [length]; unfold z1; lia|].
            apply Forall_app. split; [exact Bt|]. constructor; [reflexivity|]. apply bytes_repeat0. }
          exists (l ++ t ++ [0x80] ++ repeat 0 z1), (repeat 0 (lenat - 1) ++ [0 + last]),
            (blake_compress F (N.to_nat r) s h (t ++ [0x80] ++ repeat 0 z1) (m0 + 2 ^ w * m1)).
          destruct (zeros_ok (A := bk_acc) bs Hbp bs (t ++ [0x80]) b1 R1) as (b2 & -> & R2 & A2); [rewrite app_length; cbn; lia|lia|]. cbn [bind].
          rewrite app_length in R2. cbn [length] in R2. fold z1 in R2. rewrite <- app_assoc in R2.
          destruct (process_ok m0 m1 h _ M0 M1 Gh Blk) as [Epr Gpr]. rewrite <- A1, <- A2 in Epr.
          destruct (flush_ok (A := bk_acc) bs (bk_process p K r s) _ _ b2 (proj2 R2) (proj1 Blk) Epr) as (b3 & -> & R3 & A3). cbn [bind].
          destruct (zeros_ok (A := bk_acc) bs Hbp lenat [] b3 R3) as (b4 & -> & R4 & A4); [cbn; lia|lia|]. cbn [bind app length] in *. rewrite Nat.sub_0_r in R4.
          assert (Elast : repeat 0 lenat = repeat 0 (lenat - 1) ++ [0]).
          { replace lenat with (lenat - 1 + 1)%nat at 1 by (unfold lenat; lia). now rewrite repeat_app. }
          rewrite Elast in R4.
          destruct (Fin _ 0 b4 (proj2 R4)) as (b5 & -> & H5 & I5 & A5); [rewrite app_length, repeat_length; cbn; unfold lenat; lia|now left|].
          split.
          { rewrite <- !app_assoc. do 2 f_equal. cbn [app]. f_equal. rewrite app_assoc, <- repeat_app. rewrite N.add_0_l. f_equal. f_equal. unfold z1. lia. }
          split; [now apply mod_app; [lia|exact Hl|apply Blk]|]. split; [rewrite app_length; lia|].
          split; [rewrite app_length, repeat_length; cbn; unfold lenat; lia|].
          split; [apply Forall_app; split; [apply bytes_repeat0|]; constructor; [unfold last; destruct (thr <? n)%nat; reflexivity|constructor]|].
          split; [exact Gpr|]. split.
          { rewrite (chain_snoc bs Hbp _ _ l _ Hl (proj1 Blk)). rewrite <- Chl. f_equal. rewrite Em'. unfold blake_counter. cbn [andb]. fold bs.
            rewrite Nat.min_l; [reflexivity|].
            assert (length l = bs * (length l / bs))%nat by (apply Nat.div_exact; lia). rewrite Nat.mul_add_distr_r. lia. }
          exists b5. split; [reflexivity|]. split; [exact H5|]. split; [|rewrite A5, A4, A3; reflexivity].
          rewrite I5, (proj1 R4), app_length, repeat_length. cbn. unfold lenat. lia.
        - (* the length fits *)
          assert (Ep : (bs - (L + 2 * k) mod bs = lenat - length t)%nat).
          { replace ((L + 2 * k) mod bs)%nat with (length t + 2 * k)%nat; [lia|].
            apply (Nat.mod_unique _ _ (length l / bs)); [lia|].
            assert (length l = bs * (length l / bs))%nat by (apply Nat.div_exact; lia). rewrite EL. lia. }
          rewrite Ep.
          destruct (zeros_ok (A := bk_acc) bs Hbp lenat (t ++ [0x80]) b1 R1) as (b4 & E4 & R4 & A4); [rewrite app_length; cbn; lia|lia|]. cbn [bind].
          rewrite app_length in R4. cbn [length] in R4.
          assert (Elast : exists t0 x, (t ++ [0x80]) ++ repeat 0 (lenat - (length t + 1)) = t0 ++ [x] /\ (x = 0 \/ x = 0x80) /\ bytes_ok t0 /\
            (t ++ (if Nat.eqb (lenat - length t) 1 then [0x80 + last] else 0x80 :: repeat 0 (lenat - length t - 2) ++ [last])) = t0 ++ [x + last]).
          { destruct (Nat.eqb_spec (lenat - length t) 1) as [E1|E1].
            - exists t, 0x80. replace (lenat - (length t + 1))%nat with 0%nat by lia. cbn [repeat]. rewrite app_nil_r. auto.
            - exists (t ++ [0x80] ++ repeat 0 (lenat - length t - 2)), 0. split.
              + rewrite <- !app_assoc. do 2 f_equal. replace (lenat - (length t + 1))%nat with (lenat - length t - 2 + 1)%nat by lia. now rewrite repeat_app.
              + split; [now left|]. split; [|now rewrite <- !app_assoc].
                apply Forall_app. split; [exact Bt|]. constructor; [reflexivity|]. apply bytes_repeat0. }
          destruct Elast as (t0 & x & E1 & Hx & Bt0 & E2). rewrite E1 in R4.
          assert (Ll : length (t0 ++ [x]) = lenat).
          { rewrite <- E1, !app_length, repeat_length. cbn [length]. lia. }
          destruct (Fin t0 x b4 (proj2 R4) Ll Hx) as (b5 & E5 & H5 & I5 & A5).
          exists l, (t0 ++ [x + last]), h.
          split; [now rewrite E2|]. split; [exact Hl|]. split; [lia|]. rewrite app_length in *. cbn [length] in *. split; [exact Ll|].
          split; [apply Forall_app; split; [exact Bt0|]; constructor; [unfold last; destruct Hx as [-> | ->], (thr <? n)%nat; reflexivity|constructor]|].
          split; [exact Gh|]. split; [exact Chl|]. exists b5. split; [refine (eq_trans (f_equal (fun q => bind q _) E4) _); exact E5|]. split; [exact H5|].
          split; [rewrite I5, (proj1 R4), app_length; exact Ll|]. rewrite A5, A4. exact A1. }
      destruct Fold as (l' & t' & h' & EP & Hl' & Hll & Lt' & Bt' & Gh' & Eh' & b3 & E3 & H3 & I3 & A3).
      change (16 * k)%nat with bs in *.
      match type of E3 with (let* b := ?X in _) = _ => destruct X as [bx|e]; [|discriminate E3] end. cbn [bind] in E3 |- *.
      match type of E3 with (let* b := ?X in _) = _ => destruct X as [by_|e]; [|discriminate E3] end. cbn [bind] in E3 |- *.
      rewrite E3. cbn [bind]. clear E3 bx by_. rewrite A3. cbn [fst snd].
      assert (Est : bp_store p m1 ++ bp_store p m0 = be_bytes (2 * k) (8 * N.of_nat L)).
      { rewrite !Hstore, <- Em'. unfold be_bytes. rewrite <- rev_app_distr. f_equal. symmetry. replace (2 * k)%nat with (k + k)%nat by lia.
        replace (2 ^ w) with (256 ^ N.of_nat k) by (rewrite Hwk, N.pow_mul_r; reflexivity). apply le_bytes_split.
        replace (256 ^ N.of_nat k) with (2 ^ w) by (rewrite Hwk, N.pow_mul_r; reflexivity). exact M0. }
      rewrite Est.
      pose proof (store_ok (A := bk_acc) bs (be_bytes (2 * k) (8 * N.of_nat L)) t' b3 H3) as St. rewrite length_be_bytes, Lt' in St.
      destruct St as (b4 & -> & H4 & I4 & A4); [lia|]. cbn [bind].
      rewrite I4, I3. replace (lenat =? 0)%nat with false by (symmetry; apply Nat.eqb_neq; unfold lenat; lia).
      set (B := t' ++ be_bytes (2 * k) (8 * N.of_nat L)) in *.
      assert (BB : blk bs B).
      { split; [unfold B; rewrite app_length, length_be_bytes; lia|]. apply Forall_app. split; [exact Bt'|apply bytes_be_bytes]. }
      destruct (process_ok m0 m1 h' B M0 M1 Gh' BB) as [Ep Gp]. rewrite A3 in A4. rewrite <- A4 in Ep.
      destruct (flush_ok (A := bk_acc) bs (bk_process p K r s) B _ b4 H4 (proj1 BB) Ep) as (b5 & -> & R5 & A5). cbn [bind].
      exists b5. split; [reflexivity|]. split; [apply R5|]. rewrite A5. cbn [snd]. split; [|exact Gp].
      unfold spec_chain, blake_chain. fold L.
      assert (EPd : blake_pad F last (l ++ t) = l' ++ B).
      { unfold blake_pad. fold bs k L. unfold B. rewrite (app_assoc l'), <- EP, <- !app_assoc. reflexivity. }
      rewrite EPd. change (16 * bl_k F)%nat with bs.
      change (blake_compress F (N.to_nat r) s h' B (m0 + 2 ^ w * m1) =
        chain bs (fun h b i => blake_compress F (N.to_nat r) s h b (blake_counter F false L i)) (ivf n) (l' ++ B)).
      rewrite (chain_snoc bs Hbp _ _ l' B Hl' (proj1 BB)), <- Eh'. f_equal. rewrite Em'. unfold blake_counter. cbn [andb]. fold bs.
      rewrite Nat.min_l; [reflexivity|].
      assert (length l' = bs * (length l' / bs))%nat by (apply Nat.div_exact; lia). rewrite Nat.mul_add_distr_r. lia.
    Qed.
  End Fixed.

  Hypothesis Hwords : forall salt, bytes_ok salt -> (length salt <= 4 * k)%nat -> bp_words p salt 4 = salt_words k salt.
  Lemma salt_words_ok salt : bytes_ok salt -> (length salt <= 4 * k)%nat -> length (salt_words k salt) = 4%nat /\ words_ok w (salt_words k salt).
  Proof.
    intros B L. unfold salt_words. split; [apply length_be_words|]. apply be_words_inw; [now apply bytes_zero_pad|exact Hwk].
  Qed.
  Theorem blake_computes r salt n : bytes_ok salt -> (length salt <= 4 * k)%nat -> (1 <= n <= 8 * k)%nat ->
    computes (bk_hash p K ivf thr) r salt n (8 * k) okm
      (fun l => be_string k (blake_chain F false (N.to_nat (if r =? 0 then bp_r p else r)) (salt_words k salt) (ivf n) (if (thr <? n)%nat then 1 else 0) l)).
  Proof.
    intros Bs Ls Hn. set (r' := if r =? 0 then bp_r p else r). set (s := salt_words k salt). destruct (salt_words_ok salt Bs Ls) as [Lsw Wsw]. fold s in Lsw, Wsw.
    pose (ready := fun msg (q : blake) => bk_r q = r' /\ bk_s q = s /\ bk_o q = n /\ has_read bs (inv r' s n) msg (bk_b q)).
    pose (done := fun msg i (q : blake) => bk_o q = 0%nat /\ bb_i (bk_b q) = i /\ snd (bb_a (bk_b q)) = spec_chain r' s n msg /\ goodh (snd (bb_a (bk_b q)))).
    assert (Ebs : (16 * bp_k p)%nat = bs) by (rewrite Hk; reflexivity).
    assert (St : forall buf, ready [] (bk_start p ivf r salt n buf)).
    { intros buf. unfold bk_start. rewrite Hwords by assumption. split; [reflexivity|]. split; [reflexivity|]. split; [reflexivity|].
      exists [], []. cbn [bk_b bb_a]. split; [reflexivity|]. split; [apply bs_pos|]. split; [apply Nat.mod_0_l; pose proof bs_pos; lia|]. split; [constructor|].
      split; [|apply rep_nil]. exists 0, 0. cbn [fst snd]. split; [reflexivity|]. split; [apply inw_0|]. split; [apply inw_0|].
      split; [cbn [length]; lia|]. split; [|apply Hiv]. unfold chain. cbn [length]. rewrite Nat.div_0_l by (pose proof bs_pos; lia). reflexivity. }
    assert (In_ : forall msg q l, ready msg q -> bytes_ok l -> okm (length (msg ++ l)) -> exists q', bk_input p K q l = Ok q' /\ ready (msg ++ l) q').
    { intros msg q l (E1 & E2 & E3 & R) Bl Ho. unfold bk_input. rewrite E1, E2, E3. rewrite Ebs.
      destruct (bb_input_ok bs bs_pos (bk_step p K r' s) (inv r' s n) okm okm_le (step_inv r' s n Lsw Wsw) l msg (bk_b q) R Bl Ho) as (b' & -> & R').
      cbn [bind]. eexists. split; [reflexivity|]. repeat split; try reflexivity. exact R'. }
    assert (Out : forall q i len, bk_o q = 0%nat -> bb_i (bk_b q) = i -> goodh (snd (bb_a (bk_b q))) -> (i + len <= 8 * k)%nat ->
      exists q', bk_output p K thr q len = Ok (q', slice i len (be_string k (snd (bb_a (bk_b q))))) /\ bk_o q' = 0%nat /\ bb_i (bk_b q') = (i + len)%nat /\ bb_a (bk_b q') = bb_a (bk_b q)).
    { intros q i len E1 E2 [G1 G2] Hl. unfold bk_output. rewrite E1. cbn [Nat.eqb bind]. rewrite E2, Hk, (proj2 (Nat.leb_le _ _) Hl). cbn [assert_].
      eexists. split; [rewrite Harr by assumption; reflexivity|]. cbn [bk_o bk_b bb_i bb_a]. auto. }
    assert (Fin : forall msg q len, ready msg q -> okm (length msg) -> (len <= 8 * k)%nat ->
      exists q', bk_output p K thr q len = Ok (q', firstn len (be_string k (spec_chain r' s n msg))) /\ done msg len q').
    { intros msg [qr qs qo qb] len (E1 & E2 & E3 & R) Ho Hl. cbn [bk_r bk_s bk_o bk_b] in *. subst qr qs qo.
      destruct (ready_finish r' s n Lsw Wsw msg qb R Ho) as (b' & Ef & Ib & Eb & Gb).
      destruct (Out {| bk_r := r'; bk_s := s; bk_o := 0; bk_b := b' |} 0%nat len eq_refl Ib Gb Hl) as (q' & Eo & O' & I' & A').
      exists q'. split.
      - revert Eo. unfold bk_output. cbn [bk_o]. replace (n =? 0)%nat with false by (symmetry; apply Nat.eqb_neq; lia). rewrite Ef. cbn [Nat.eqb bind bk_b bk_o bk_r bk_s].
        intros Eo. rewrite Eo. cbn [bk_b]. rewrite Eb. reflexivity.
      - split; [exact O'|]. split; [exact I'|]. rewrite A'. split; [exact Eb|exact Gb]. }
    apply (computes_intro (bk_hash p K ivf thr) r salt n (8 * k) okm _ ready done).
    - unfold hash_args_ok, bk_hash. cbn [hs_maxsalt hs_maxout]. rewrite Hk. rewrite (proj2 (N.leb_le _ _)) by lia. cbn [andb]. apply orb_true_iff. right. apply Nat.leb_le. lia.
    - lia.
    - right. cbn [hs_maxout bk_hash]. rewrite Hk. lia.
    - exact okm_le.
    - eexists. split; [reflexivity|apply St].
    - intros q. eexists. split; [reflexivity|apply St].
    - intros msg q l R _ Bl Ho. exact (In_ msg q l R Bl Ho).
    - intros msg q len R _ Ho Hl. exact (Fin msg q len R Ho Hl).
    - intros msg i q len (D1 & D2 & D3 & D4) _ Hl. destruct (Out q i len D1 D2 D4 Hl) as (q' & Eo & O' & I' & A').
      exists q'. split; [cbn [hs_output bk_hash]; rewrite Eo, D3; reflexivity|]. split; [exact O'|]. split; [exact I'|]. rewrite A'. auto.
    - intros l Bl Ho. cbn [hs_all bk_hash]. destruct (In_ [] _ l (St []) Bl Ho) as (q1 & -> & R1). cbn [bind].
      destruct (Fin l q1 n R1 Ho) as (q2 & -> & _); [lia|]. reflexivity.
  Qed.
End Blake.

(** ** the two functions *)
Lemma K256_ok : blake256_K = pi_words 32. Proof. vm_compute. reflexivity. Qed.
Lemma K512_ok : blake512_K = pi_words 64. Proof. vm_compute. reflexivity. Qed.
Lemma iv256_ok : iv256 = blake2s_IV. Proof. vm_compute. reflexivity. Qed.
Lemma iv224_ok : blake256_iv 0 = iv224. Proof. vm_compute. reflexivity. Qed.
Lemma iv512_ok : iv512 = blake2b_IV. Proof. vm_compute. reflexivity. Qed.
Lemma iv384_ok : blake512_iv 0 = iv384. Proof. vm_compute. reflexivity. Qed.
Lemma blake256_iv_eq n : blake256_iv n = if (28 <? n)%nat then iv256 else iv224.
Proof. rewrite iv256_ok, <- iv224_ok. unfold blake256_iv. now destruct (28 <? n)%nat. Qed.
Lemma blake512_iv_eq n : blake512_iv n = if (48 <? n)%nat then iv512 else iv384.
Proof. rewrite iv512_ok, <- iv384_ok. unfold blake512_iv. now destruct (48 <? n)%nat. Qed.
Ltac words := apply Forall_forall; intros ? Hin; cbn in Hin; repeat (destruct Hin as [<-|Hin]; [reflexivity|]); destruct Hin.
Lemma blake256_iv_ok n : length (blake256_iv n) = 8%nat /\ words_ok 32 (blake256_iv n).
Proof. unfold blake256_iv. destruct (28 <? n)%nat; (split; [reflexivity|words]). Qed.
Lemma blake512_iv_ok n : length (blake512_iv n) = 8%nat /\ words_ok 64 (blake512_iv n).
Proof. unfold blake512_iv. destruct (48 <? n)%nat; (split; [reflexivity|words]). Qed.
Lemma block_words p (ws : nat -> nat -> list N -> list N) k b :
  (forall n l, length (ws k n l) = n) ->
  (forall n l i, bytes_ok l -> (k * n <= length l)%nat -> (i < n)%nat -> bp_load p l (k * i) = nth i (ws k n l) 0) -> bp_k p = k ->
  blk (16 * k) b -> bk_block p b = ws k 16%nat b.
Proof.
  intros Hl Hn Hk [Lb Bb]. unfold bk_block. rewrite Hk. apply nth_ext with (d := 0) (d' := 0); rewrite map_length, seq_length; [now rewrite Hl|].
  intros i Hi. rewrite nth_map_seq by exact Hi. apply Hn; [exact Bb|lia|exact Hi].
Qed.
Lemma pow_split a b : a = b + b -> 2 ^ b * 2 ^ b = 2 ^ a.
Proof. intros ->. symmetry. apply N.pow_add_r. Qed.

Theorem blake256_computes r salt n : bytes_ok salt -> (length salt <= 16)%nat -> (1 <= n <= 32)%nat ->
  computes hash_blake256 r salt n 32 (fun len => 8 * N.of_nat len < 2 ^ 64) (blake256_r false (N.to_nat (if r =? 0 then 14 else r)) salt n).
Proof.
  intros B L Hn. eapply computes_weaken.
  - apply (blake_computes blake256p blake256_K blake256_iv 28 fb256); [reflexivity|reflexivity|cbn; lia|reflexivity|reflexivity|cbn; lia|exact K256_ok|reflexivity|words|..|exact B|exact L|exact Hn].
    + intros b Hb. apply (block_words blake256p be_words 4); [apply length_be_words| |reflexivity|exact Hb]. intros. now apply nth_load32b.
    + apply store32b_bytes.
    + intros h i m Hh Hm. cbn [bp_array blake256p]. change (bl_k fb256) with 4%nat in *. rewrite store32b_array_eq, stores32b_be; [reflexivity|]. lia.
    + apply blake256_iv_ok.
    + reflexivity.
    + intros s Bs' Ls'. cbn [bp_words blake256p bl_k fb256] in *. apply key32b_words; assumption.
  - cbn. lia.
  - lia.
  - intros x Hx. unfold okm. change (bl_w fb256) with 32. rewrite (pow_split 64 32) by reflexivity. exact Hx.
  - intros m j Hj. apply f_equal. unfold blake256_r. rewrite blake256_iv_eq. reflexivity.
Qed.
Theorem blake512_computes r salt n : bytes_ok salt -> (length salt <= 32)%nat -> (1 <= n <= 64)%nat ->
  computes hash_blake512 r salt n 64 (fun len => 8 * N.of_nat len < 2 ^ 128) (blake512_r false (N.to_nat (if r =? 0 then 16 else r)) salt n).
Proof.
  intros B L Hn. eapply computes_weaken.
  - apply (blake_computes blake512p blake512_K blake512_iv 48 fb512); [reflexivity|reflexivity|cbn; lia|reflexivity|reflexivity|cbn; lia|exact K512_ok|reflexivity|words|..|exact B|exact L|exact Hn].
    + intros b Hb. apply (block_words blake512p be_words 8); [apply length_be_words| |reflexivity|exact Hb]. intros. now apply nth_load64b.
    + apply store64b_bytes.
    + intros h i m Hh Hm. cbn [bp_array blake512p]. change (bl_k fb512) with 8%nat in *. rewrite store64b_array_eq, stores64b_be; [reflexivity|]. lia.
    + apply blake512_iv_ok.
    + reflexivity.
    + intros s Bs' Ls'. cbn [bp_words blake512p bl_k fb512] in *. unfold salt_words. rewrite key64b_loads by assumption. now apply loads64b_be.
  - cbn. lia.
  - lia.
  - intros x Hx. unfold okm. change (bl_w fb512) with 64. rewrite (pow_split 128 64) by reflexivity. exact Hx.
  - intros m j Hj. apply f_equal. unfold blake512_r. rewrite blake512_iv_eq. reflexivity.
Qed.

(** ** the published function, when the last block contains message bits or there are none at all *)
Section Published.
  Variable F : blake_fn.
  Let k := bl_k F.
  Let bs := (16 * bl_k F)%nat.
  Hypothesis Hk0 : (0 < k)%nat.
  Definition counter_ok (len : nat) : Prop := len = 0%nat \/ (1 <= len mod bs < 14 * k)%nat.
  Lemma chain_zero rounds s iv last l : counter_ok (length l) -> blake_chain F false rounds s iv last l = blake_chain F true rounds s iv last l.
  Proof.
    intros H. unfold blake_chain. apply fold_ext. intros h i Hi. f_equal. unfold blake_counter. cbn [andb]. change (16 * bl_k F)%nat with bs.
    destruct (Nat.leb_spec (length l) (i * bs)) as [E|E]; [|reflexivity].
    destruct H as [H|H]; [rewrite H; reflexivity|]. exfalso. apply in_seq in Hi. revert Hi. unfold blake_pad. cbv zeta. change (16 * bl_k F)%nat with bs. change (bl_k F) with k.
    assert (Hb : bs = (14 * k + 2 * k)%nat) by (unfold bs; fold k; lia).
    pose proof (Nat.div_mod (length l) bs ltac:(lia)) as D. set (q := (length l / bs)%nat) in *. set (u := (length l mod bs)%nat) in *.
    assert (Ep : (bs - (length l + 2 * k) mod bs = 14 * k - u)%nat).
    { replace ((length l + 2 * k) mod bs)%nat with (u + 2 * k)%nat; [lia|]. apply (Nat.mod_unique _ _ q); [lia|]. rewrite D. lia. }
    rewrite Ep. rewrite !app_length, length_be_bytes.
    replace (length (if (14 * k - u =? 1)%nat then [0x80 + last] else 0x80 :: repeat 0 (14 * k - u - 2) ++ [last])) with (14 * k - u)%nat.
    - intros Hi. assert (length l <= q * bs)%nat; [|rewrite Nat.mul_comm in *; lia].
      etransitivity; [exact E|]. apply Nat.mul_le_mono_r. assert (i < S q)%nat; [|lia].
      eapply Nat.lt_le_trans; [apply Hi|]. cbn [Nat.add]. replace (length l + (14 * k - u + 2 * k))%nat with ((S q) * bs)%nat by (rewrite D; lia).
      rewrite Nat.div_mul by lia. lia.
    - destruct (Nat.eqb_spec (14 * k - u) 1); cbn [length]; [lia|]. rewrite app_length, repeat_length. cbn [length]. lia.
  Qed.
End Published.
Lemma computes_ext d r salt n cap (ok ok' : nat -> Prop) H H' : computes d r salt n cap ok H -> (forall x, ok' x -> ok x) ->
  (forall m, ok' (length m) -> H m = H' m) -> computes d r salt n cap ok' H'.
Proof.
  intros C Ho HH parts Hp Hl. destruct (C parts Hp (Ho _ Hl)) as [C1 C2]. rewrite <- HH by exact Hl. now split.
Qed.
Theorem blake256_published salt n : bytes_ok salt -> (length salt <= 16)%nat -> (1 <= n <= 32)%nat ->
  computes hash_blake256 0 salt n 32 (fun len => 8 * N.of_nat len < 2 ^ 64 /\ (len = 0 \/ 1 <= len mod 64 <= 55)%nat) (blake256 salt n).
Proof.
  intros B L Hn. eapply computes_ext; [apply blake256_computes; assumption|now intros x [Hx _]|].
  intros m [_ H]. unfold blake256, blake256_r. apply f_equal. apply (chain_zero fb256); [cbn; lia|].
  destruct H as [H|H]; [now left|right]. change (16 * bl_k fb256)%nat with 64%nat. cbn [bl_k fb256]. lia.
Qed.
Theorem blake512_published salt n : bytes_ok salt -> (length salt <= 32)%nat -> (1 <= n <= 64)%nat ->
  computes hash_blake512 0 salt n 64 (fun len => 8 * N.of_nat len < 2 ^ 128 /\ (len = 0 \/ 1 <= len mod 128 <= 111)%nat) (blake512 salt n).
Proof.
  intros B L Hn. eapply computes_ext; [apply blake512_computes; assumption|now intros x [Hx _]|].
  intros m [_ H]. unfold blake512, blake512_r. apply f_equal. apply (chain_zero fb512); [cbn; lia|].
  destruct H as [H|H]; [now left|right]. change (16 * bl_k fb512)%nat with 128%nat. cbn [bl_k fb512]. lia.
Qed.
