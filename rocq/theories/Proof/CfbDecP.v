(** CFB decryption of more than one block: what the code computes. *)
From Coq Require Import NArith Arith List Bool Lia.
From Verif Require Import Lib.Word Lib.Res Lib.Bytes Lib.XorBytes Lib.Lists Lib.BlockLoop Lib.MemLemmas Spec.Block Spec.Cipher Spec.Modes Spec.Leak Spec.CfbDec
  Model.BlockApi Model.Mem Model.Modes Proof.ModesP Proof.ModesBP Proof.ModesFinal.
Import ListNotations.
Local Open Scope nat_scope.

Lemma bytes_rd_sub m a n b k : a <= b -> b + k <= a + n -> bytes_ok (rd m a n) -> bytes_ok (rd m b k).
Proof.
  intros H1 H2 H. replace n with ((b - a) + k + (a + n - b - k)) in H by lia. rewrite !rd_app in H.
  apply bytes_app in H. destruct H as [H _]. apply bytes_app in H. destruct H as [_ H]. now replace (a + (b - a)) with b in H by lia.
Qed.
Lemma slice_rd m a n o k : o + k <= n -> slice o k (rd m a n) = rd m (a + o) k.
Proof.
  intros H. symmetry. apply rd_list; [unfold slice; rewrite firstn_length, skipn_length, length_rd; lia|].
  intros i Hi. unfold slice. rewrite nth_firstn, nth_skipn, nth_rd by lia. f_equal. lia.
Qed.

Section Dec.
  Variable c : bcipher.
  Notation bs := (bc_bs c).
  Variables (r : N) (key iv : list N) (st : bc_st c).
  Hypothesis Hcreate : bc_create c r key = Ok st.
  Hypothesis Hworks : works c st.
  Let Hbs : 0 < bs := proj1 Hworks.
  Let Hp := proj2 Hworks.
  Hypothesis Hiv : bytes_ok iv.
  Let f := fn (bc_enc c st).
  Let iv' := pad_iv bs iv.

  (** up to one block from position [a] on, which is beyond the first block *)
  Lemma dec_chunk m v src dst len a j : blk bs v -> src + len <= dst \/ dst + len <= src -> bs <= a -> 0 < j <= bs -> a + j <= len ->
    exists p m', mfor j a (cfb_dec_turn c src dst) ({| fb_blk := st; fb_prev := v; fb_used := bs |}, m) =
        Ok ({| fb_blk := st; fb_prev := p; fb_used := j |}, m') /\
      (length p = bs /\ forall i, i < j -> nth i p 0%N = m (src + a + i)) /\
      (forall i, i < bs -> m' (dst + i) = nth i (f v) 0%N) /\
      (forall i, i < j -> m' (dst + a + i) = N.lxor (m (dst + a + i)) (m (src + a + i))) /\
      (forall x, (x < dst \/ dst + bs <= x) -> (x < dst + a \/ dst + a + j <= x) -> m' x = m x).
  Proof.
    intros Hv Hb Ha Hj Hl. destruct (enc_ok c st Hp v Hv) as (Ee & [L _] & _). fold f in Ee, L.
    revert Hj Hl. induction j as [|j IH]; intros Hj Hl; [lia|]. destruct j as [|j].
    - exists (upd v 0 (m (src + a))). eexists. split; [|split; [|split; [|split]]].
      + cbn [mfor]. unfold cfb_dec_turn. cbn [fb_used fb_prev fb_blk]. rewrite Nat.eqb_refl, Ee. cbn [bind fb_used fb_prev fb_blk].
        assert (X : wr1 (wr m dst (f v)) (dst + a) (N.lxor (wr m dst (f v) (dst + a)) (wr m dst (f v) (src + a))) (src + a) = m (src + a)).
        { rewrite wr1_neq by lia. rewrite wr_out by lia. reflexivity. }
        rewrite X. unfold put. rewrite (proj2 (Nat.ltb_lt 0 (length v))) by (rewrite (proj1 Hv); lia). reflexivity.
      + rewrite length_upd. split; [apply Hv|]. intros i Hi. assert (i = 0) by lia. subst i.
        rewrite nth_upd, Nat.eqb_refl, (proj2 (Nat.ltb_lt 0 (length v))) by (rewrite (proj1 Hv); lia). cbn [andb]. f_equal. lia.
      + intros i Hi. rewrite wr1_neq, wr_in by lia. f_equal. lia.
      + intros i Hi. assert (i = 0) by lia. subst i. rewrite !Nat.add_0_r. rewrite wr1_eq, !wr_out by lia. reflexivity.
      + intros x H1 H2. rewrite wr1_neq by lia. apply wr_out. lia.
    - destruct (IH ltac:(lia) ltac:(lia)) as (p & m' & E1 & (Lp & Np) & G1 & G2 & F). clear IH.
      replace (S (S j)) with (S j + 1) by lia. exists (upd p (S j) (m (src + a + S j))). eexists.
      split; [|split; [|split; [|split]]].
      + rewrite mfor_app, E1. cbn [bind mfor]. unfold cfb_dec_turn at 1. cbn [fb_used fb_prev fb_blk].
        destruct (Nat.eqb_spec (S j) bs) as [X|_]; [lia|]. cbn [bind].
        rewrite (wr1_neq _ (dst + (a + S j)) _ (src + (a + S j))) by lia. rewrite (F (src + (a + S j))) by lia.
        cbn [fb_used fb_prev fb_blk]. unfold put. rewrite (proj2 (Nat.ltb_lt (S j) (length p))) by lia.
        cbn [bind]. rewrite ?Nat.add_1_r, !Nat.add_assoc. reflexivity.
      + rewrite length_upd. split; [exact Lp|]. intros i Hi. rewrite nth_upd.
        destruct (Nat.eqb_spec i (S j)) as [->|Hne]; cbn [andb]; [now rewrite (proj2 (Nat.ltb_lt (S j) (length p))) by lia|apply Np; lia].
      + intros i Hi. rewrite wr1_neq by lia. now apply G1.
      + intros i Hi. destruct (Nat.eq_dec i (S j)) as [->|Hne].
        * rewrite wr1_eq. rewrite (F (dst + a + S j)) by lia. reflexivity.
        * rewrite wr1_neq by lia. apply G2. lia.
      + intros x H1 H2. rewrite wr1_neq by lia. apply F; lia.
  Qed.

  (** [S q] whole blocks *)
  Lemma dec_blocks m src dst len q : blk bs iv' -> src + len <= dst \/ dst + len <= src -> bytes_ok (rd m src len) -> S q * bs <= len ->
    exists m', mfor (S q * bs) 0 (cfb_dec_turn c src dst) ({| fb_blk := st; fb_prev := iv'; fb_used := bs |}, m) =
        Ok ({| fb_blk := st; fb_prev := rd m (src + q * bs) bs; fb_used := bs |}, m') /\
      (forall k, bs <= k < S q * bs -> m' (dst + k) = N.lxor (m (dst + k)) (m (src + k))) /\
      frame m m' dst (S q * bs).
  Proof.
    intros Biv Hb Hm. induction q as [|q IH]; intros Hl.
    - replace (1 * bs) with bs in * by lia.
      destruct (cfb_dec_first c st Hbs Hp iv' Biv {| fb_blk := st; fb_prev := iv'; fb_used := bs |} m src dst bs eq_refl eq_refl eq_refl
        ltac:(lia) ltac:(lia)) as (s' & m' & E & _ & F & Hs). exists m'. unfold cfb_decrypt in E. rewrite E, (Hs eq_refl).
      split; [|split; [intros k Hk; lia|exact F]]. now rewrite Nat.mul_0_l, Nat.add_0_r.
    - destruct (IH ltac:(lia)) as (m1 & E1 & G & F). clear IH.
      assert (Bv : blk bs (rd m (src + q * bs) bs)).
      { split; [apply length_rd|]. apply (bytes_rd_sub m src len); [lia|lia|exact Hm]. }
      destruct (dec_chunk m1 (rd m (src + q * bs) bs) src dst len (S q * bs) bs Bv Hb ltac:(lia) ltac:(lia) ltac:(lia))
        as (p & m' & E2 & (Lp & Np) & _ & G2 & F2).
      assert (Xp : p = rd m (src + S q * bs) bs).
      { symmetry. apply rd_list; [exact Lp|]. intros i Hi. rewrite Np by exact Hi. symmetry. apply F. lia. }
      subst p. exists m'. split; [|split].
      + replace (S (S q) * bs) with (S q * bs + bs) by lia. rewrite mfor_app, E1. cbn [bind]. rewrite Nat.add_0_l. exact E2.
      + intros k Hk. destruct (Nat.lt_ge_cases k (S q * bs)) as [A|A].
        * rewrite F2 by lia. apply G. lia.
        * replace (dst + k) with (dst + S q * bs + (k - S q * bs)) by lia. rewrite G2 by lia.
          rewrite !(F (_ + _ * _ + _)) by lia. f_equal; f_equal; lia.
      + intros x Hx. rewrite F2 by lia. apply F. lia.
  Qed.

  Lemma cfb_dec_long s0 m src dst len : fb_create c r key iv = Ok s0 -> bs < len -> src + len <= dst \/ dst + len <= src ->
    bytes_ok (rd m src len) ->
    exists s' m', cfb_decrypt c s0 m src dst len = Ok (s', m') /\
      rd m' dst len = cfb_dec_leaves bs f iv' (rd m dst len) (rd m src len) /\ frame m m' dst len.
  Proof.
    intros H0 Hl Hb Hm. destruct (fb_start c r key iv st Hcreate Hiv s0 H0) as (E1 & E2 & E3 & B).
    assert (S0 : s0 = {| fb_blk := st; fb_prev := iv'; fb_used := bs |}) by (destruct s0 as [x y z]; cbn in *; now subst).
    rewrite S0. clear S0 E1 E2 E3 H0.
    pose proof (Nat.div_mod_eq (len - 1) bs) as D. pose proof (Nat.mod_upper_bound (len - 1) bs ltac:(lia)) as U.
    destruct ((len - 1) / bs) as [|q] eqn:Q; [lia|]. set (j := len - S q * bs).
    assert (Hq : S q * bs + j = len /\ 0 < j <= bs) by (unfold j; nia). destruct Hq as [Hq Hj]. clearbody j. clear D U.
    destruct (dec_blocks m src dst len q B Hb Hm ltac:(lia)) as (m1 & E1 & G & F).
    assert (Bv : blk bs (rd m (src + q * bs) bs)).
    { split; [apply length_rd|]. apply (bytes_rd_sub m src len); [lia|nia|exact Hm]. }
    destruct (dec_chunk m1 (rd m (src + q * bs) bs) src dst len (S q * bs) j Bv Hb ltac:(lia) ltac:(lia) ltac:(lia))
      as (p & m' & X2 & _ & G1 & G2 & F2).
    exists {| fb_blk := st; fb_prev := p; fb_used := j |}, m'. split; [|split].
    - unfold cfb_decrypt. rewrite <- Hq, mfor_app, E1. cbn [bind]. rewrite Nat.add_0_l. exact X2.
    - destruct (enc_ok c st Hp _ Bv) as (_ & [Lf _] & _). fold f in Lf.
      assert (Xb : chained bs iv' (rd m src len) ((len - 1) / bs) = rd m (src + q * bs) bs).
      { rewrite Q. cbn [chained]. unfold block. apply slice_rd. nia. }
      unfold cfb_dec_leaves. rewrite length_rd, Xb.
      assert (Lx : length (xor_bytes (skipn bs (rd m dst len)) (skipn bs (rd m src len))) = len - bs).
      { rewrite length_xor, !skipn_length, !length_rd; apply Nat.min_id. }
      apply rd_list; [rewrite app_length, Lf, Lx; lia|].
      intros i Hi. destruct (Nat.lt_ge_cases i bs) as [A|A].
      + rewrite app_nth1 by lia. now apply G1.
      + rewrite app_nth2 by lia. rewrite Lf.
        rewrite nth_xor_bytes by (rewrite !skipn_length, !length_rd; reflexivity || lia).
        rewrite !nth_skipn, !nth_rd by lia. replace (bs + (i - bs)) with i by lia.
        destruct (Nat.lt_ge_cases i (S q * bs)) as [A'|A'].
        * rewrite F2 by lia. apply G. lia.
        * replace (dst + i) with (dst + S q * bs + (i - S q * bs)) by lia. rewrite G2 by lia.
          rewrite !(F (_ + _ * _ + _)) by lia. f_equal; f_equal; lia.
    - intros x Hx. rewrite F2 by nia. apply F. nia.
  Qed.
End Dec.
