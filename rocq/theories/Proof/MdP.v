(** The common part of the Merkle-Damgard hashes computes the iterated hash of the padded message. *)
From Coq Require Import NArith Arith List Bool Lia.
From Verif Require Import Lib.Word Lib.Res Lib.Bytes Lib.MemLemmas Model.LoadStore Spec.Modes Spec.Hash Model.HashApi Model.Md.
Import ListNotations.
Local Open Scope nat_scope.

(** lists *)
Lemma blocks_snoc bs l b : 0 < bs -> length l mod bs = 0 -> length b = bs -> blocks bs (l ++ b) = blocks bs l ++ [b].
Proof.
  intros Hb Hl Hlb. unfold blocks. rewrite app_length, Hlb. replace (length l + bs) with (length l + 1 * bs) by lia.
  rewrite Nat.div_add by lia. rewrite seq_app, map_app. cbn [seq map Nat.add].
  assert (E : length l = (length l / bs) * bs) by (rewrite Nat.mul_comm; apply Nat.div_exact; lia).
  apply f_equal2.
  - apply map_ext_in. intros i Hi. apply in_seq in Hi. unfold block, slice.
    rewrite skipn_app, firstn_app. replace (bs - length (skipn (i * bs) l)) with 0; [now rewrite firstn_O, app_nil_r|].
    rewrite skipn_length. assert (S i * bs <= (length l / bs) * bs) by (apply Nat.mul_le_mono_r; lia). cbn [Nat.mul] in *. lia.
  - f_equal. unfold block, slice. rewrite <- E, skipn_app, skipn_all, Nat.sub_diag. cbn [app skipn].
    rewrite <- Hlb. apply firstn_all.
Qed.
Lemma blocks_partial bs l b : 0 < bs -> length l mod bs = 0 -> length b < bs -> blocks bs (l ++ b) = blocks bs l.
Proof.
  intros Hb Hl Hlb. unfold blocks. rewrite app_length.
  assert (E : length l = (length l / bs) * bs) by (rewrite Nat.mul_comm; apply Nat.div_exact; lia).
  replace ((length l + length b) / bs) with (length l / bs).
  - apply map_ext_in. intros i Hi. apply in_seq in Hi. unfold block, slice.
    rewrite skipn_app, firstn_app. replace (bs - length (skipn (i * bs) l)) with 0; [now rewrite firstn_O, app_nil_r|].
    rewrite skipn_length. assert (S i * bs <= (length l / bs) * bs) by (apply Nat.mul_le_mono_r; lia). cbn [Nat.mul] in *. lia.
  - apply Nat.div_unique with (r := length b); [exact Hlb|]. rewrite (Nat.mul_comm bs), <- E. reflexivity.
Qed.
Lemma iterate_snoc bs c h l b : 0 < bs -> length l mod bs = 0 -> length b = bs -> iterate bs c h (l ++ b) = c (iterate bs c h l) b.
Proof. intros. unfold iterate. rewrite blocks_snoc by assumption. now rewrite fold_left_app. Qed.
Lemma iterate_partial bs c h l b : 0 < bs -> length l mod bs = 0 -> length b < bs -> iterate bs c h (l ++ b) = iterate bs c h l.
Proof. intros. unfold iterate. now rewrite blocks_partial. Qed.
Lemma firstn_snoc_upd {A} (l : list A) i x : i < length l -> firstn (S i) (upd l i x) = firstn i l ++ [x].
Proof.
  revert i. induction l as [|a l IH]; intros i H; [cbn in H; lia|]. destruct i; [reflexivity|].
  cbn [length] in H. cbn [upd]. change (a :: firstn (S i) (upd l i x) = a :: (firstn i l ++ [x])). now rewrite IH by lia.
Qed.
Lemma bput_ok cap buf i v : i < cap -> i <= length buf -> exists buf', bput cap buf i v = Ok buf' /\
  firstn (S i) buf' = firstn i buf ++ [v] /\ S i <= length buf'.
Proof.
  intros Hc Hi. unfold bput. rewrite (proj2 (Nat.leb_gt _ _) Hc). destruct (Nat.ltb_spec i (length buf)) as [H|H].
  - exists (upd buf i v). split; [reflexivity|]. split; [now apply firstn_snoc_upd|rewrite length_upd; lia].
  - assert (i = length buf) as -> by lia. rewrite Nat.eqb_refl. eexists. split; [reflexivity|]. split.
    + rewrite firstn_all2 by (rewrite app_length; cbn; lia). now rewrite firstn_all.
    + rewrite app_length. cbn. lia.
Qed.

(** counters *)
Fixpoint cnt_val (l : list N) : N := match l with [] => 0 | a :: t => a + 2 ^ 64 * cnt_val t end%N.
Definition top (n : nat) : N := (2 ^ (64 * N.of_nat n))%N.
Lemma top_S n : (top (S n) = 2 ^ 64 * top n)%N.
Proof. unfold top. rewrite Nat2N.inj_succ, N.mul_succ_r, N.pow_add_r. apply N.mul_comm. Qed.
Lemma top_pos n : (0 < top n)%N.
Proof. apply N.neq_0_lt_0, N.pow_nonzero. discriminate. Qed.
Lemma cnt_val_top l : words_ok 64 l -> (cnt_val l < top (length l))%N.
Proof.
  induction 1 as [|a t Ha Ht IH]; [reflexivity|]. cbn [cnt_val length]. rewrite top_S. unfold inw in Ha.
  generalize dependent (top (length t)). intros T IH.
  change (2 ^ 64)%N with 18446744073709551616%N in *. lia.
Qed.
Lemma cnt_inc_ok l : words_ok 64 l -> (cnt_val l + 1 < top (length l))%N ->
  exists l', cnt_inc l = Ok l' /\ words_ok 64 l' /\ length l' = length l /\ (cnt_val l' = cnt_val l + 1)%N.
Proof.
  induction 1 as [|a t Ha Ht IH]; intros B; [vm_compute in B; discriminate|]. cbn [cnt_inc]. cbn [cnt_val length] in B. rewrite top_S in B.
  unfold inw in Ha. assert (E : wadd 64 a 1 = ((a + 1) mod 2 ^ 64)%N) by apply wadd_mod.
  destruct (N.eqb_spec (wadd 64 a 1) 0) as [Z|Z].
  - assert (Ea : (a = 2 ^ 64 - 1)%N).
    { rewrite E in Z. destruct (N.lt_ge_cases (a + 1) (2 ^ 64)) as [L|L]; [rewrite N.mod_small in Z by exact L; lia|].
      change (2 ^ 64)%N with 18446744073709551616%N in *. lia. }
    destruct IH as (t' & E' & W' & L' & V').
    { generalize dependent (top (length t)). intros T B. rewrite Ea in B. change (2 ^ 64)%N with 18446744073709551616%N in *. lia. }
    rewrite E'. cbn [bind]. exists (wadd 64 a 1 :: t'). split; [reflexivity|]. split; [|split].
    + constructor; [|exact W']. rewrite Z. reflexivity.
    + cbn [length]. now rewrite L'.
    + cbn [cnt_val]. rewrite V', Z, Ea. change (2 ^ 64)%N with 18446744073709551616%N. lia.
  - exists (wadd 64 a 1 :: t). split; [reflexivity|]. split; [|split].
    + constructor; [|exact Ht]. rewrite E. apply N.mod_upper_bound. discriminate.
    + reflexivity.
    + cbn [cnt_val]. rewrite E in *. destruct (N.lt_ge_cases (a + 1) (2 ^ 64)) as [L|L].
      * rewrite N.mod_small by exact L. lia.
      * exfalso. apply Z. replace (a + 1)%N with (2 ^ 64)%N by lia. reflexivity.
Qed.
Lemma cnt_add_ok l x : words_ok 64 l -> (x < 2 ^ 64)%N -> (cnt_val l + x < top (length l))%N -> l <> [] ->
  exists l', cnt_add l x = Ok l' /\ words_ok 64 l' /\ length l' = length l /\ (cnt_val l' = cnt_val l + x)%N.
Proof.
  intros W Hx B Hl. destruct W as [|a t Ha Ht]; [congruence|]. cbn [cnt_add]. cbn [cnt_val length] in B. rewrite top_S in B.
  unfold inw in Ha. assert (E : wadd 64 a x = ((a + x) mod 2 ^ 64)%N) by apply wadd_mod.
  destruct (N.lt_ge_cases (a + x) (2 ^ 64)) as [L|L].
  - rewrite N.mod_small in E by exact L. rewrite E. rewrite (proj2 (N.ltb_ge _ _)) by lia.
    eexists. split; [reflexivity|]. split; [constructor; [exact L|exact Ht]|]. split; [reflexivity|]. cbn [cnt_val]. lia.
  - assert (E' : wadd 64 a x = (a + x - 2 ^ 64)%N).
    { rewrite E. symmetry. apply N.mod_unique with (q := 1%N); lia. }
    rewrite E'. rewrite (proj2 (N.ltb_lt _ _)) by lia.
    destruct (cnt_inc_ok t Ht) as (t' & Et & W' & L' & V').
    { generalize dependent (top (length t)). intros T B. change (2 ^ 64)%N with 18446744073709551616%N in *. lia. }
    rewrite Et. cbn [bind]. eexists. split; [reflexivity|]. split; [constructor; [unfold inw; lia|exact W']|].
    split; [cbn [length]; now rewrite L'|]. cbn [cnt_val]. rewrite V'. lia.
Qed.
Lemma cnt_val_zero n : cnt_val (repeat 0%N n) = 0%N.
Proof. induction n; [reflexivity|]. cbn [repeat cnt_val]. rewrite IHn. reflexivity. Qed.

Section Md.
  Variables (p : mdp) (lb limbs : nat) (enc : nat -> N -> list N) (compress : list N -> list N -> list N)
    (hok : list N -> Prop) (ser : list N -> list N) (iv : list N).
  Let bs := mp_bs p.
  Hypothesis Hlb : 0 < mp_lenat p /\ 0 < lb /\ mp_lenat p + lb = bs.
  Hypothesis Hbs64 : (N.of_nat (8 * bs) < 2 ^ 64)%N.
  Hypothesis Hlimbs : 0 < limbs.
  Hypothesis Hpad : (mp_pad p < 256)%N.
  Hypothesis Henc : forall x, blk lb (enc lb x).
  Hypothesis Hlen : forall l, length l = limbs -> words_ok 64 l -> mp_len p l = enc lb (cnt_val l).
  Hypothesis Hiv : hok iv.
  Hypothesis Hproc : forall h b, hok h -> blk bs b -> mp_process p h b = Ok (compress h b) /\ hok (compress h b).
  Hypothesis Hout : forall h i n, hok h -> i + n <= mp_maxout p -> mp_out p h i n = slice i n (ser h).

  (** [l]: what has been compressed, [t]: what is in the buffer *)
  Definition tail_ (l t : list N) (s : md) : Prop :=
    md_h s = iterate bs compress iv l /\ length l mod bs = 0 /\ length t <= bs /\ bytes_ok t /\ hok (md_h s) /\
    md_i s = length t /\ firstn (md_i s) (md_buf s) = t /\ md_i s <= length (md_buf s).
  Definition at_ (msg : list N) (s : md) : Prop := exists l t, msg = l ++ t /\ length t < bs /\ tail_ l t s /\ md_o s = false /\
    words_ok 64 (md_len s) /\ length (md_len s) = limbs /\ cnt_val (md_len s) = (8 * N.of_nat (length l))%N.
  Definition same (s s' : md) : Prop := md_len s' = md_len s /\ md_o s' = md_o s.

  Lemma put_ok l t v s : tail_ l t s -> length t < bs -> (v < 256)%N -> exists s', md_put p v s = Ok s' /\ tail_ l (t ++ [v]) s' /\ same s s'.
  Proof.
    intros (H1 & H2 & H3 & H4 & H5 & H6 & H7 & H8) Ht Hv. unfold md_put.
    destruct (bput_ok bs (md_buf s) (md_i s) v ltac:(lia) H8) as (b & E & F & L). fold bs. rewrite E. cbn [bind].
    eexists. split; [reflexivity|]. split; [|now split]. repeat split; cbn [md_h md_i md_buf]; try assumption.
    - rewrite app_length. cbn. lia.
    - apply bytes_app. split; [exact H4|constructor; [exact Hv|constructor]].
    - rewrite app_length. cbn. lia.
    - now rewrite F, H7.
  Qed.
  Lemma puts_ok bytes l t s : tail_ l t s -> length t + length bytes <= bs -> bytes_ok bytes ->
    exists s', fold_left (fun s b => let* s := s in md_put p b s) bytes (Ok s) = Ok s' /\ tail_ l (t ++ bytes) s' /\ same s s'.
  Proof.
    revert t s. induction bytes as [|b u IH]; intros t s H Hl Hb.
    - exists s. rewrite app_nil_r. repeat split; apply H.
    - cbn [length] in Hl. inversion Hb as [|? ? Hb1 Hb2]; subst. cbn [fold_left bind].
      destruct (put_ok l t b s H ltac:(lia) Hb1) as (s1 & E1 & H1 & S1). rewrite E1.
      destruct (IH (t ++ [b]) s1 H1 ltac:(rewrite app_length; cbn; lia) Hb2) as (s2 & E2 & H2 & S2).
      exists s2. split; [exact E2|]. rewrite <- app_assoc in H2. split; [exact H2|].
      destruct S1, S2. split; congruence.
  Qed.
  Lemma zeros_ok n l t s : tail_ l t s -> n <= bs ->
    exists s', md_zeros p n s = Ok s' /\ tail_ l (t ++ repeat 0%N (n - length t)) s' /\ same s s'.
  Proof.
    intros H Hn. unfold md_zeros. destruct H as (H1 & H2 & H3 & H4 & H5 & H6 & H7 & H8). rewrite H6.
    assert (H : tail_ l t s) by (repeat split; assumption). clear H1 H2 H4 H5 H6 H7 H8.
    remember (n - length t) as k eqn:Ek. assert (Hk : length t + k <= bs) by lia. clear Ek.
    generalize 0 at 1. revert t s H H3 Hk. induction k as [|k IH]; intros t s H H3 Hk i; cbn [mfor repeat].
    - exists s. rewrite app_nil_r. repeat split; apply H.
    - destruct (put_ok l t 0%N s H ltac:(lia) ltac:(reflexivity)) as (s1 & E1 & T1 & S1). rewrite E1. cbn [bind].
      destruct (IH (t ++ [0%N]) s1 T1 ltac:(rewrite app_length; cbn; lia) ltac:(rewrite app_length; cbn; lia) (S i)) as (s2 & E2 & T2 & S2).
      exists s2. split; [exact E2|]. rewrite <- app_assoc in T2. split; [exact T2|]. destruct S1, S2. split; congruence.
  Qed.
  Lemma flush_ok l t s : tail_ l t s -> length t = bs -> exists s', md_flush p s = Ok s' /\ tail_ (l ++ t) [] s' /\ same s s'.
  Proof.
    intros (H1 & H2 & H3 & H4 & H5 & H6 & H7 & H8) Ht. unfold md_flush. fold bs.
    rewrite (proj2 (Nat.ltb_ge _ _)) by lia.
    assert (F : firstn bs (md_buf s) = t) by (rewrite <- Ht, <- H6; exact H7). rewrite F.
    destruct (Hproc (md_h s) t H5 (conj Ht H4)) as [E O]. rewrite E. cbn [bind].
    eexists. split; [reflexivity|]. split; [|now split]. repeat split; cbn [md_h md_i md_buf length].
    - rewrite iterate_snoc by (lia || assumption). now rewrite H1.
    - rewrite app_length, Ht. rewrite <- Nat.add_mod_idemp_l, H2 by lia. cbn. apply Nat.mod_same. lia.
    - lia.
    - constructor.
    - exact O.
    - lia.
  Qed.
  Lemma count_ok n l t s : tail_ l t s -> words_ok 64 (md_len s) -> length (md_len s) = limbs -> (n < 2 ^ 64)%N ->
    (cnt_val (md_len s) + n < top limbs)%N ->
    exists s', md_count n s = Ok s' /\ tail_ l t s' /\ md_o s' = md_o s /\ words_ok 64 (md_len s') /\ length (md_len s') = limbs /\
      cnt_val (md_len s') = (cnt_val (md_len s) + n)%N.
  Proof.
    intros H W L Hn B. unfold md_count. destruct (cnt_add_ok (md_len s) n W Hn) as (l' & E & W' & L' & V).
    - now rewrite L.
    - intros C. rewrite C in L. cbn in L. lia.
    - rewrite E. cbn [bind]. eexists. split; [reflexivity|]. cbn [md_o md_len]. repeat split; try apply H; try assumption. congruence.
  Qed.

  Lemma byte_ok msg s b : at_ msg s -> (b < 256)%N -> (8 * N.of_nat (S (length msg)) < top limbs)%N ->
    exists s', md_byte p s b = Ok s' /\ at_ (msg ++ [b]) s'.
  Proof.
    intros (l & t & -> & Ht & HT & Ho & W & L & V) Hb HB. unfold md_byte.
    destruct (put_ok l t b s HT Ht Hb) as (s1 & E1 & T1 & [S1 S1']). rewrite E1. cbn [bind].
    assert (I1 : md_i s1 = S (length t)). { destruct T1 as (_ & _ & _ & _ & _ & I & _). rewrite I, app_length. cbn. lia. }
    fold bs. rewrite I1. destruct (Nat.eqb_spec (S (length t)) bs) as [Eq|Ne].
    - rewrite app_length in HB.
      destruct (count_ok (N.of_nat (8 * bs)) l (t ++ [b]) s1 T1) as (s2 & E2 & T2 & O2 & W2 & L2 & V2);
        try (rewrite ?S1; assumption).
      { rewrite S1, V. eapply N.le_lt_trans; [|exact HB]. lia. }
      rewrite E2. cbn [bind]. destruct (flush_ok l (t ++ [b]) s2 T2 ltac:(rewrite app_length; cbn; lia)) as (s3 & E3 & T3 & [S3 S3']).
      rewrite E3. eexists. split; [reflexivity|]. exists (l ++ t ++ [b]), []. rewrite app_nil_r, <- app_assoc. split; [reflexivity|].
      split; [cbn; lia|]. split; [exact T3|]. split; [congruence|]. rewrite S3. split; [exact W2|]. split; [exact L2|].
      rewrite V2, S1, V, !app_length. cbn [length]. lia.
    - exists s1. split; [reflexivity|]. exists l, (t ++ [b]). rewrite <- app_assoc. split; [reflexivity|].
      split; [rewrite app_length; cbn; lia|]. split; [exact T1|]. split; [congruence|]. rewrite S1. auto.
  Qed.
  Lemma input_ok data msg s : at_ msg s -> bytes_ok data -> (8 * N.of_nat (length (msg ++ data)) < top limbs)%N ->
    exists s', md_input p s data = Ok s' /\ at_ (msg ++ data) s'.
  Proof.
    revert msg s. induction data as [|b u IH]; intros msg s H Hd HB; cbn [md_input].
    - exists s. now rewrite app_nil_r.
    - inversion Hd as [|? ? Hb1 Hb2]; subst. rewrite app_length in HB. cbn [length] in HB.
      destruct (byte_ok msg s b H Hb1 ltac:(lia)) as (s1 & E1 & H1). rewrite E1. cbn [bind].
      destruct (IH (msg ++ [b]) s1 H1 Hb2) as (s2 & E2 & H2); [rewrite !app_length; cbn [length]; lia|].
      exists s2. split; [exact E2|]. now rewrite <- app_assoc in H2.
  Qed.

  Let H msg := iterate bs compress iv (md_pad bs lb (mp_pad p) enc msg).
  Lemma finish_ok msg s : at_ msg s -> (8 * N.of_nat (length msg) < top limbs)%N ->
    exists s', md_finish p s = Ok s' /\ md_h s' = H msg /\ hok (md_h s') /\ md_i s' = 0 /\ md_o s' = true.
  Proof.
    intros (l & t & -> & Ht & HT & Ho & W & L & V) HB. unfold md_finish.
    rewrite app_length in HB.
    assert (I : md_i s = length t) by (destruct HT as (_ & _ & _ & _ & _ & I & _); exact I).
    destruct (count_ok (N.of_nat (8 * md_i s)) l t s HT W L) as (s1 & E1 & T1 & O1 & W1 & L1 & V1).
    { rewrite I. eapply N.le_lt_trans; [|exact Hbs64]. lia. }
    { rewrite V, I. eapply N.le_lt_trans; [|exact HB]. lia. }
    rewrite E1. cbn [bind].
    destruct (put_ok l t (mp_pad p) s1 T1 Ht Hpad) as (s2 & E2 & T2 & [S2 S2']). rewrite E2. cbn [bind].
    assert (I2 : md_i s2 = S (length t)). { destruct T2 as (_ & _ & _ & _ & _ & J & _). rewrite J, app_length. cbn. lia. }
    rewrite I2. assert (Ml : length l mod bs = 0) by apply T1.
    assert (Mt : length (l ++ t) mod bs = length t).
    { rewrite app_length, <- Nat.add_mod_idemp_l, Ml by lia. cbn. apply Nat.mod_small. exact Ht. }
    assert (Vs : cnt_val (md_len s2) = (8 * N.of_nat (length (l ++ t)))%N).
    { rewrite S2, V1, V, I, app_length. lia. }
    assert (exists s3 l' t', (if mp_lenat p <? S (length t) then let* s0 := md_zeros p (mp_bs p) s2 in md_flush p s0 else Ok s2) = Ok s3 /\
      tail_ l' t' s3 /\ same s2 s3 /\ length t' <= mp_lenat p /\
      md_pad bs lb (mp_pad p) enc (l ++ t) =
      l' ++ t' ++ repeat 0%N (mp_lenat p - length t') ++ enc lb (8 * N.of_nat (length (l ++ t)))%N) as (s3 & l' & t' & E3 & T3 & [S3 S3'] & L3 & P3).
    { unfold md_pad. rewrite Mt. destruct (Nat.ltb_spec (mp_lenat p) (S (length t))) as [Big|Small].
      - fold bs. destruct (zeros_ok bs l _ s2 T2 (le_n _)) as (s3 & E3 & T3 & [S3 S3']). rewrite E3. cbn [bind].
        destruct (flush_ok l _ s3 T3) as (s4 & E4 & T4 & [S4 S4']).
        { rewrite app_length, repeat_length, app_length. cbn [length]. lia. }
        exists s4, (l ++ (t ++ [mp_pad p]) ++ repeat 0%N (bs - length (t ++ [mp_pad p]))), []. split; [exact E4|]. split; [exact T4|].
        split; [split; congruence|]. split; [cbn; lia|]. rewrite app_length. cbn [length app]. rewrite Nat.sub_0_r.
        rewrite <- !app_assoc. cbn [app]. do 2 apply f_equal. apply f_equal.
        rewrite app_assoc, <- repeat_app. apply f_equal2; [|reflexivity]. apply f_equal. rewrite Nat.mod_small by lia. rewrite app_length. cbn [length]. lia.
      - exists s2, l, (t ++ [mp_pad p]). split; [reflexivity|]. split; [exact T2|]. split; [now split|].
        rewrite app_length. cbn [length]. split; [lia|]. rewrite <- !app_assoc. cbn [app]. do 2 apply f_equal. apply f_equal.
        f_equal. f_equal. replace (2 * bs - lb - 1 - length t) with (mp_lenat p - 1 - length t + 1 * bs) by lia.
        rewrite Nat.mod_add by lia. rewrite Nat.mod_small by lia. lia. }
    rewrite E3. cbn [bind].
    destruct (zeros_ok (mp_lenat p) l' t' s3 T3 ltac:(lia)) as (s4 & E4 & T4 & [S4 S4']). rewrite E4. cbn [bind].
    assert (ML : mp_len p (md_len s4) = enc lb (8 * N.of_nat (length (l ++ t)))%N).
    { rewrite S4, S3, <- Vs. apply Hlen; rewrite S2; assumption. }
    rewrite ML. destruct (Henc (8 * N.of_nat (length (l ++ t)))%N) as [Le Be].
    destruct (puts_ok _ l' _ s4 T4 ltac:(rewrite app_length, repeat_length, Le; lia) Be) as (s5 & E5 & T5 & [S5 S5']).
    rewrite E5. cbn [bind].
    destruct (flush_ok l' _ s5 T5) as (s6 & E6 & T6 & [S6 S6']).
    { rewrite app_length, Le, app_length, repeat_length. lia. }
    rewrite E6. cbn [bind]. eexists. split; [reflexivity|]. cbn [md_h md_i md_o].
    destruct T6 as (Q1 & _ & _ & _ & Q5 & _). split; [|now split]. unfold H. rewrite P3, Q1. now rewrite <- app_assoc.
  Qed.

  (** reading *)
  Definition done_ (d : list N) (i : nat) (s : md) : Prop := hok (md_h s) /\ ser (md_h s) = d /\ md_i s = i /\ md_o s = true.
  Lemma slice_firstn {A} (l : list A) i n : firstn i l ++ slice i n l = firstn (i + n) l.
  Proof.
    unfold slice. revert l. induction i as [|i IH]; intros l; cbn [Nat.add]; [reflexivity|].
    destruct l as [|x l]; cbn [firstn skipn app]; [now rewrite firstn_nil|]. now rewrite IH.
  Qed.
  Lemma output_done d i n s : done_ d i s -> i + n <= mp_maxout p ->
    exists s', md_output p s n = Ok (s', slice i n d) /\ done_ d (i + n) s'.
  Proof.
    intros (H1 & H2 & H3 & H4) Hn. unfold md_output. rewrite H4. cbn [bind]. rewrite H3, (proj2 (Nat.leb_le _ _) Hn). cbn [assert_].
    rewrite Hout by assumption. rewrite H2. eexists. split; [reflexivity|]. repeat split; try assumption.
  Qed.
  Lemma output_first msg n s : at_ msg s -> (8 * N.of_nat (length msg) < top limbs)%N -> n <= mp_maxout p ->
    exists s', md_output p s n = Ok (s', slice 0 n (ser (H msg))) /\ done_ (ser (H msg)) n s'.
  Proof.
    intros HA HB Hn. assert (Ho : md_o s = false) by (destruct HA as (? & ? & _ & _ & _ & ? & _); assumption).
    destruct (finish_ok msg s HA HB) as (s1 & E1 & H1 & H2 & H3 & H4).
    unfold md_output. rewrite Ho, E1. cbn [bind]. rewrite H3, (proj2 (Nat.leb_le _ _)) by lia. cbn [assert_].
    rewrite Hout by (rewrite ?Nat.add_0_l; assumption). rewrite H1. eexists. split; [reflexivity|].
    repeat split; cbn [md_h md_i md_o]; try assumption; congruence.
  Qed.
  Lemma start_at buf : at_ [] (md_start limbs iv buf).
  Proof.
    exists [], []. split; [reflexivity|]. split; [cbn; lia|]. split.
    - repeat split; try (cbn; lia); try exact Hiv; try constructor.
      + unfold iterate, blocks. cbn [length]. rewrite Nat.div_0_l by lia. reflexivity.
      + cbn [length]. apply Nat.mod_0_l. lia.
    - split; [reflexivity|]. unfold md_start. cbn [md_len]. split; [|split].
      + unfold words_ok. apply Forall_forall. intros x Hx. apply repeat_spec in Hx. now subst.
      + apply repeat_length.
      + apply cnt_val_zero.
  Qed.

  (** a descriptor built of these functions, with rounds and initial value chosen by create *)
  Variables (d : hash) (prep : md -> hs_st d) (r : N) (salt : list N) (n : nat).
  Hypothesis Hargs : hash_args_ok d salt n = true.
  Hypothesis Hcreate : exists b, hs_create d r salt n = Ok (prep (md_start limbs iv b)).
  Hypothesis Hrecreate : forall s, exists b, hs_recreate d s r salt n = Ok (prep (md_start limbs iv b)).
  Hypothesis Hinput : forall s l, hs_input d (prep s) l = let* s := md_input p s l in Ok (prep s).
  Hypothesis Houtput : forall s k, hs_output d (prep s) k = let* q := md_output p s k in Ok (prep (fst q), snd q).
  Hypothesis Hmaxout : hs_maxout d = mp_maxout p.
  Hypothesis Hall : forall l, exists b,
    hs_all d r salt l n = let* s := md_input p (md_start limbs iv b) l in let* q := md_output p s n in Ok (snd q).

  Lemma feed_ok parts msg s : at_ msg s -> Forall bytes_ok parts -> (8 * N.of_nat (length (msg ++ concat parts)) < top limbs)%N ->
    exists s', feed d (prep s) parts = Ok (prep s') /\ at_ (msg ++ concat parts) s'.
  Proof.
    revert msg s. induction parts as [|x t IH]; intros msg s HA HP HB; cbn [feed concat].
    - exists s. now rewrite app_nil_r.
    - inversion HP as [|? ? P1 P2]; subst. cbn [concat] in HB. rewrite app_assoc in HB.
      destruct (input_ok x msg s HA P1) as (s1 & E1 & H1). { rewrite app_length in HB. lia. }
      unfold hash_input. rewrite Hinput, E1. cbn [bind]. destruct (IH _ _ H1 P2 HB) as (s2 & E2 & H2).
      exists s2. split; [exact E2|]. now rewrite <- app_assoc in H2.
  Qed.
  Lemma drain_done lens D i s : done_ D i s -> i + list_sum lens <= mp_maxout p ->
    exists o, drain d (prep s) lens = Ok o /\ firstn i D ++ o = firstn (i + list_sum lens) D.
  Proof.
    revert i s. induction lens as [|k t IH]; intros i s HD HL; cbn [drain list_sum fold_right] in *.
    - exists []. now rewrite app_nil_r, Nat.add_0_r.
    - change (fold_right Nat.add 0 t) with (list_sum t) in *. unfold hash_output. rewrite Hmaxout.
      replace ((mp_maxout p =? 0) || (k <=? mp_maxout p)) with true by (symmetry; apply orb_true_iff; right; apply Nat.leb_le; lia).
      cbn [assert_]. rewrite Houtput. destruct (output_done D i k s HD ltac:(lia)) as (s1 & E1 & D1). rewrite E1. cbn [bind fst snd].
      destruct (IH (i + k) s1 D1 ltac:(lia)) as (o & E2 & F2). rewrite E2. cbn [bind]. exists (slice i k D ++ o). split; [reflexivity|].
      rewrite app_assoc, slice_firstn, F2. f_equal. lia.
  Qed.
  Lemma drain_first lens msg s : at_ msg s -> (8 * N.of_nat (length msg) < top limbs)%N -> list_sum lens <= mp_maxout p ->
    drain d (prep s) lens = Ok (firstn (list_sum lens) (ser (H msg))).
  Proof.
    intros HA HB HL. destruct lens as [|k t]; [reflexivity|]. cbn [drain list_sum fold_right] in *.
    change (fold_right Nat.add 0 t) with (list_sum t) in *. unfold hash_output. rewrite Hmaxout.
    replace ((mp_maxout p =? 0) || (k <=? mp_maxout p)) with true by (symmetry; apply orb_true_iff; right; apply Nat.leb_le; lia).
    cbn [assert_]. rewrite Houtput. destruct (output_first msg k s HA HB ltac:(lia)) as (s1 & E1 & D1). rewrite E1. cbn [bind fst snd].
    destruct (drain_done t _ k s1 D1 HL) as (o & E2 & F2). rewrite E2. cbn [bind]. now rewrite <- F2.
  Qed.
  Lemma md_computes : n <= mp_maxout p ->
    computes d r salt n (mp_maxout p) (fun len => (8 * N.of_nat len < top limbs)%N) (fun m => ser (H m)).
  Proof.
    intros Hn parts HP HB.
    assert (G : forall b lens, list_sum lens <= mp_maxout p ->
      (let* s := feed d (prep (md_start limbs iv b)) parts in drain d s lens) = Ok (firstn (list_sum lens) (ser (H (concat parts))))).
    { intros b lens HL. destruct (feed_ok parts [] _ (start_at b) HP HB) as (s1 & E1 & H1). rewrite E1. cbn [bind].
      now apply drain_first. }
    split.
    - intros lens HL. unfold digest, hash_create, hash_recreate. rewrite Hargs. cbn [assert_]. split.
      + destruct Hcreate as [b ->]. cbn [bind]. now apply G.
      + intros s. destruct (Hrecreate s) as [b ->]. cbn [bind]. now apply G.
    - unfold hash_all. rewrite Hargs. cbn [assert_]. destruct (Hall (concat parts)) as [b ->].
      assert (B : bytes_ok (concat parts)). { unfold bytes_ok. apply Forall_concat. exact HP. }
      destruct (input_ok (concat parts) [] _ (start_at b) B HB) as (s1 & E1 & H1). rewrite E1. cbn [bind app] in *.
      destruct (output_first _ n s1 H1 HB Hn) as (s2 & E2 & _). rewrite E2. reflexivity.
  Qed.
End Md.

(** the descriptors made by [md_hash] *)
Lemma rmd_computes (m : N -> mdp) (start : N -> nat -> list N -> res rmd) lb limbs enc compress (hok : list N -> Prop) ser iv r r' n bs maxout :
  let p := m r' in
  mp_bs p = bs -> mp_maxout p = maxout -> (n <= maxout)%nat ->
  0 < mp_lenat p /\ 0 < lb /\ mp_lenat p + lb = bs -> (N.of_nat (8 * bs) < 2 ^ 64)%N -> 0 < limbs -> (mp_pad p < 256)%N ->
  (forall x, blk lb (enc lb x)) -> (forall l, length l = limbs -> words_ok 64 l -> mp_len p l = enc lb (cnt_val l)) ->
  hok iv -> (forall h b, hok h -> blk bs b -> mp_process p h b = Ok (compress h b) /\ hok (compress h b)) ->
  (forall h i k, hok h -> i + k <= maxout -> mp_out p h i k = slice i k (ser h)) ->
  (forall b, start r n b = Ok (r', md_start limbs iv b)) ->
  computes (md_hash m start maxout bs) r [] n maxout (fun len => (8 * N.of_nat len < top limbs)%N)
    (fun msg => ser (iterate bs compress iv (md_pad bs lb (mp_pad p) enc msg))).
Proof.
  intros p Hb Hm Hn H1 H2 H3 H4 H5 H6 H7 H8 H9 Hs. subst maxout bs.
  apply (md_computes p lb limbs enc compress hok ser iv) with (prep := fun s => (r', s)); try assumption.
  - unfold hash_args_ok. cbn [length hs_maxsalt hs_maxout md_hash]. cbn [Nat.leb andb].
    rewrite (proj2 (Nat.leb_le _ _) Hn). apply orb_true_r.
  - exists []. apply Hs.
  - intros s. eexists. apply Hs.
  - reflexivity.
  - reflexivity.
  - reflexivity.
  - intros l. exists []. cbn [hs_all md_hash]. unfold rmd_all, rmd_input, rmd_output. rewrite Hs. cbn [bind fst snd].
    fold p. destruct (md_input p _ l) as [s|]; [|reflexivity]. cbn [bind fst snd]. fold p. destruct (md_output p s n) as [q|]; reflexivity.
Qed.

(** the two ways to store the length *)
Lemma le_bytes_split n m a b : (a < 256 ^ N.of_nat n)%N -> le_bytes (n + m) (a + 256 ^ N.of_nat n * b) = le_bytes n a ++ le_bytes m b.
Proof.
  revert a. induction n as [|n IH]; intros a Ha.
  - cbn in Ha. replace a with 0%N by lia. cbn [le_bytes app Nat.add]. f_equal. change (256 ^ N.of_nat 0)%N with 1%N. lia.
  - cbn [le_bytes app Nat.add]. rewrite Nat2N.inj_succ, N.pow_succ_r' in *. generalize dependent (256 ^ N.of_nat n)%N. intros P IH Ha.
    replace (a + 256 * P * b)%N with (a + (P * b) * 256)%N by lia.
    rewrite N.mod_add, N.div_add by discriminate. f_equal. apply IH. apply N.div_lt_upper_bound; [discriminate|lia].
Qed.
Lemma len_le l : words_ok 64 l -> flat_map store64l l = le_bytes (8 * length l) (cnt_val l).
Proof.
  induction 1 as [|a t Ha Ht IH]; [reflexivity|]. cbn [flat_map length cnt_val]. rewrite IH, store64l_bytes.
  replace (8 * S (length t)) with (8 + 8 * length t) by lia. symmetry. apply (le_bytes_split 8). exact Ha.
Qed.
Lemma len_be l : words_ok 64 l -> flat_map store64b (rev l) = be_bytes (8 * length l) (cnt_val l).
Proof.
  intros H. unfold be_bytes. rewrite <- (len_le l H). clear H. induction l as [|a t IH]; [reflexivity|]. cbn [rev flat_map].
  rewrite flat_map_app, IH, rev_app_distr. f_equal.
Qed.

Lemma computes_weaken d r salt n cap cap' (ok ok' : nat -> Prop) H H' : computes d r salt n cap ok H -> (cap' <= cap)%nat -> (n <= cap')%nat ->
  (forall x, ok' x -> ok x) -> (forall m k, (k <= cap')%nat -> firstn k (H m) = firstn k (H' m)) -> computes d r salt n cap' ok' H'.
Proof.
  intros C Hc Hn Ho HH parts Hp Hl. destruct (C parts Hp (Ho _ Hl)) as [C1 C2]. split.
  - intros lens Hs. rewrite <- HH by exact Hs. apply C1. lia.
  - rewrite <- HH by exact Hn. exact C2.
Qed.
Lemma firstn_of_firstn {A} (l : list A) j k : (k <= j)%nat -> firstn k l = firstn k (firstn j l).
Proof. intros H. rewrite firstn_firstn. f_equal. lia. Qed.
Lemma len_bits limbs B x : top limbs = (8 * B)%N -> (N.of_nat x < B)%N -> (8 * N.of_nat x < top limbs)%N.
Proof. intros -> H. lia. Qed.
(** the premises of [rmd_computes] on the parameters *)
Ltac md_side := match goal with |- forall _, _ => fail 1 | |- _ => first [reflexivity|cbn; lia] end.
