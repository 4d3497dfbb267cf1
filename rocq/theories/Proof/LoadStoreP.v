(** include/kripto/loadstore.h: the array forms agree with the scalar forms. *)
From Coq Require Import NArith Arith List Bool Lia.
From Verif Require Import Lib.Word Lib.Res Lib.Bytes Model.LoadStore.
Import ListNotations.
Local Open Scope N_scope.

Lemma byte_lor a b : byte (N.lor a b) = N.lor (byte a) (byte b).
Proof. unfold byte. apply N.land_lor_distr_l. Qed.
Lemma byte_small b : b < 256 -> byte b = b.
Proof. intros H. change (byte b) with (mask 8 b). now apply mask_id. Qed.
Lemma byte_shl_high b n : 8 <= n -> byte (N.shiftl b n) = 0.
Proof.
  intros H. apply N.bits_inj_0. intros i. unfold byte. change 255 with (N.ones 8). rewrite N.land_spec.
  destruct (N.lt_ge_cases i 8) as [L|L].
  - now rewrite N.shiftl_spec_low by lia.
  - rewrite N.ones_spec_high by exact L. apply andb_false_r.
Qed.
Lemma shl_shr b s t : N.shiftr (N.shiftl b s) t = if t <=? s then N.shiftl b (s - t) else N.shiftr b (t - s).
Proof.
  destruct (N.leb_spec t s) as [L|L].
  - now rewrite N.shiftr_shiftl_l by exact L.
  - now rewrite N.shiftr_shiftl_r by lia.
Qed.
Lemma byte_shr_high b n : b < 256 -> 8 <= n -> byte (N.shiftr b n) = 0.
Proof.
  intros H Hn. rewrite N.shiftr_div_pow2, N.div_small; [reflexivity|].
  apply N.lt_le_trans with (1 := H). change 256 with (2 ^ 8). apply N.pow_le_mono_r; lia.
Qed.

Lemma load_bytes k sh src n : (k <> 0)%nat -> bytes_ok src ->
  (forall i j, (i / k = j / k)%nat -> i <> j -> sh i + 8 <= sh j \/ sh j + 8 <= sh i) ->
  forall m, (m <= k * n)%nat -> forall i, (i < k * n)%nat ->
  byte (N.shiftr (nth (i / k) (load_array k sh src (repeat 0 n) m) 0) (sh i)) = if (i <? m)%nat then b_ src i else 0.
Proof.
  intros Hk Hb Hsh m Hm i Hi. unfold load_array.
  assert (Hd : (i / k < n)%nat) by (apply Nat.div_lt_upper_bound; assumption).
  pose (P := fun m (d : list N) => length d = n /\
    byte (N.shiftr (nth (i / k) d 0) (sh i)) = if (i <? m)%nat then b_ src i else 0).
  enough (H : P m (pfor m 0 (fun i0 d => upd d (i0 / k) (N.lor (nth (i0 / k) d 0) (N.shiftl (b_ src i0) (sh i0)))) (repeat 0 n))) by apply H.
  apply (pfor_inv P).
  2:{ split; [apply repeat_length|]. rewrite nth_repeat, N.shiftr_0_l. reflexivity. }
  intros j d Hj [Hl H]. split; [now rewrite length_upd|].
  rewrite nth_upd. rewrite Hl.
  assert (Hjn : (j / k < n)%nat) by (apply Nat.div_lt_upper_bound; [exact Hk|lia]).
  rewrite (proj2 (Nat.ltb_lt (j / k) n) Hjn), andb_true_r.
  destruct (Nat.eqb_spec (i / k) (j / k)) as [E|E].
  - rewrite N.shiftr_lor, byte_lor, <- E, H, shl_shr.
    destruct (Nat.eq_dec i j) as [->|Ne].
    + rewrite (proj2 (Nat.ltb_ge j j)) by lia. rewrite (proj2 (Nat.ltb_lt j (S j))) by lia.
      rewrite N.leb_refl, N.sub_diag, N.shiftl_0_r, N.lor_0_l. apply byte_small. now apply bytes_nth.
    + replace (i <? S j)%nat with (i <? j)%nat by (destruct (Nat.ltb_spec i j), (Nat.ltb_spec i (S j)); (reflexivity || lia)).
      replace (byte (if sh i <=? sh j then N.shiftl (b_ src j) (sh j - sh i) else N.shiftr (b_ src j) (sh i - sh j))) with 0;
      [apply N.lor_0_r|].
      symmetry. destruct (N.leb_spec (sh i) (sh j)) as [L|L]; destruct (Hsh i j E Ne) as [D|D];
      first [lia | apply byte_shl_high; lia | apply byte_shr_high; [now apply bytes_nth|lia]].
  - rewrite H. replace (i <? S j)%nat with (i <? j)%nat; [reflexivity|].
    destruct (Nat.ltb_spec i j), (Nat.ltb_spec i (S j)); try reflexivity; try lia.
    assert (i = j) by lia. subst j. now destruct E.
Qed.

Lemma sh_l_apart k i j : (k <> 0)%nat -> (i / k = j / k)%nat -> i <> j -> sh_l k i + 8 <= sh_l k j \/ sh_l k j + 8 <= sh_l k i.
Proof.
  intros Hk E Ne. unfold sh_l. pose proof (Nat.div_mod_eq i k). pose proof (Nat.div_mod_eq j k). rewrite E in H. lia.
Qed.
Lemma sh_b_apart k i j : (k <> 0)%nat -> (i / k = j / k)%nat -> i <> j -> sh_b k i + 8 <= sh_b k j \/ sh_b k j + 8 <= sh_b k i.
Proof.
  intros Hk E Ne. unfold sh_b. pose proof (Nat.div_mod_eq i k). pose proof (Nat.div_mod_eq j k). rewrite E in H.
  pose proof (Nat.mod_upper_bound i k Hk). pose proof (Nat.mod_upper_bound j k Hk). lia.
Qed.

Lemma nth_flat {A B} (f : A -> list B) c l j t d da : (forall i, length (f i) = c) -> (j < length l)%nat -> (t < c)%nat ->
  nth (c * j + t) (flat_map f l) d = nth t (f (nth j l da)) d.
Proof.
  intros Hc. revert j. induction l as [|a l IH]; intros j Hj Ht; cbn [length] in Hj; [lia|]. cbn [flat_map].
  destruct j as [|j].
  - rewrite app_nth1 by (rewrite Hc; lia). cbn [nth]. f_equal. lia.
  - rewrite app_nth2 by (rewrite Hc; lia). rewrite Hc. cbn [nth]. rewrite <- (IH j) by lia. f_equal. lia.
Qed.

Section Array.
  Context (w : N) (k : nat) (ld : list N -> nat -> N) (st : N -> list N) (sh : nat -> N) (C : codec w k ld st).
  Hypothesis Hk : (k <> 0)%nat.
  Hypothesis Hw : w = 8 * N.of_nat k.
  Hypothesis Hst : forall x j, (j < k)%nat -> nth j (st x) 0 = byte (N.shiftr x (sh j)).
  Hypothesis Hmod : forall i, sh i = sh (i mod k).
  Hypothesis Hap : forall i j, (i / k = j / k)%nat -> i <> j -> sh i + 8 <= sh j \/ sh j + 8 <= sh i.
  Hypothesis Hle : forall i, sh i + 8 <= w.
  Hypothesis Hloc : forall l l' o, (forall i, (i < k)%nat -> b_ l (o + i) = b_ l' (o + i)) -> ld l o = ld l' o.

  Lemma nth_stores ws i : (i < k * length ws)%nat -> nth i (stores st ws) 0 = byte (N.shiftr (nth (i / k) ws 0) (sh i)).
  Proof.
    intros Hi. unfold stores.
    pose proof (Nat.div_mod_eq i k). pose proof (Nat.mod_upper_bound i k Hk).
    rewrite H at 1. rewrite (nth_flat st k ws (i / k) (i mod k) 0 0); [|apply C|apply Nat.div_lt_upper_bound; assumption|assumption].
    rewrite Hst by assumption. now rewrite (Hmod i).
  Qed.

  (** LOAD..._ARRAY into zeroed words loads the zero padded words *)
  Lemma array_loads src n : bytes_ok src -> (length src <= k * n)%nat ->
    load_array k sh src (repeat 0 n) (length src) = loads ld k n src.
  Proof.
    intros Hb Hl. set (z := (k * n - length src)%nat). set (full := src ++ repeat 0 z).
    assert (Bf : blk (k * n) full).
    { split; [unfold full; rewrite app_length, repeat_length; unfold z; lia|]. apply bytes_app. split; [exact Hb|apply bytes_repeat0]. }
    rewrite <- (load_array_zero k sh src z (repeat 0 n)). fold full.
    replace (length src + z)%nat with (k * n)%nat by (unfold z; lia).
    assert (L : loads ld k n src = loads ld k n full).
    { unfold loads. apply map_ext_in. intros i _. apply Hloc. intros j _. unfold b_, full.
      destruct (Nat.lt_ge_cases (k * i + j) (length src)) as [H|H]; [now rewrite app_nth1 by lia|].
      rewrite nth_overflow by lia. rewrite app_nth2 by lia. now rewrite nth_repeat. }
    rewrite L. set (d := load_array k sh full (repeat 0 n) (k * n)).
    assert (Ld : length d = n) by (unfold d; rewrite length_load_array; apply repeat_length).
    assert (Wd : words_ok w d).
    { unfold d. apply words_load_array; [apply Bf|apply words_repeat0|exact Hle]. }
    rewrite <- (loads_stores C d Wd), Ld. f_equal.
    apply nth_ext with (d := 0) (d' := 0); [rewrite (length_stores C), Ld; symmetry; apply Bf|].
    rewrite (length_stores C), Ld. intros i Hi. rewrite nth_stores by (rewrite Ld; exact Hi).
    unfold d. rewrite load_bytes; try assumption; try apply Bf; try lia.
    now rewrite (proj2 (Nat.ltb_lt i (k * n)) Hi).
  Qed.

  (** STORE..._ARRAY stores a range of the bytes of the words *)
  Lemma array_stores ws o n : (o + n <= k * length ws)%nat ->
    store_array k sh ws o n = slice o n (stores st ws).
  Proof.
    intros H. rewrite slice_nth by (now rewrite (length_stores C)). unfold store_array.
    replace (seq o n) with (map (fun i => (o + i)%nat) (seq 0 n)).
    2:{ clear. revert o. induction n as [|n IH]; intros o; [reflexivity|]. cbn [seq map]. rewrite Nat.add_0_r. f_equal.
        rewrite <- seq_shift, map_map, <- (IH (S o)). apply map_ext. intros. lia. }
    rewrite map_map. apply map_ext_in. intros i Hi. apply in_seq in Hi. rewrite nth_stores by lia. reflexivity.
  Qed.
End Array.

Ltac six := intros x j Hj; do 8 (destruct j as [|j]; [cbn -[byte]; try (rewrite N.shiftr_0_r); reflexivity|try lia]).
Ltac loc := intros l l' o H; unfold load16l, load32l, load64l, load16b, load32b, load64b;
  pose proof (H 0%nat ltac:(lia)) as H0; rewrite Nat.add_0_r in H0; rewrite H0;
  repeat match goal with |- context [b_ l (o + ?i)%nat] => rewrite (H i) by lia end; reflexivity.

Lemma sh_l_mod k i : (k <> 0)%nat -> sh_l k i = sh_l k (i mod k).
Proof. intros H. unfold sh_l. now rewrite Nat.mod_mod. Qed.
Lemma sh_b_mod k i : (k <> 0)%nat -> sh_b k i = sh_b k (i mod k).
Proof. intros H. unfold sh_b. now rewrite Nat.mod_mod. Qed.

Lemma key32l_loads key n : bytes_ok key -> (length key <= 4 * n)%nat -> key32l key n = loads load32l 4 n key.
Proof.
  apply (array_loads 32 4 load32l store32l (sh_l 4) codec32l); try discriminate; try reflexivity.
  - six.
  - intros. now apply sh_l_mod.
  - intros. now apply sh_l_apart.
  - intros. now apply (sh_l_le 4).
  - loc.
Qed.
Lemma key32b_loads key n : bytes_ok key -> (length key <= 4 * n)%nat -> key32b key n = loads load32b 4 n key.
Proof.
  apply (array_loads 32 4 load32b store32b (sh_b 4) codec32b); try discriminate; try reflexivity.
  - six.
  - intros. now apply sh_b_mod.
  - intros. now apply sh_b_apart.
  - intros. now apply (sh_b_le 4).
  - loc.
Qed.
Lemma key16l_loads key n : bytes_ok key -> (length key <= 2 * n)%nat -> key16l key n = loads load16l 2 n key.
Proof.
  apply (array_loads 16 2 load16l store16l (sh_l 2) codec16l); try discriminate; try reflexivity.
  - six.
  - intros. now apply sh_l_mod.
  - intros. now apply sh_l_apart.
  - intros. now apply (sh_l_le 2).
  - loc.
Qed.
Lemma key16b_loads key n : bytes_ok key -> (length key <= 2 * n)%nat -> key16b key n = loads load16b 2 n key.
Proof.
  apply (array_loads 16 2 load16b store16b (sh_b 2) codec16b); try discriminate; try reflexivity.
  - six.
  - intros. now apply sh_b_mod.
  - intros. now apply sh_b_apart.
  - intros. now apply (sh_b_le 2).
  - loc.
Qed.
Lemma key64l_loads key n : bytes_ok key -> (length key <= 8 * n)%nat -> key64l key n = loads load64l 8 n key.
Proof.
  apply (array_loads 64 8 load64l store64l (sh_l 8) codec64l); try discriminate; try reflexivity.
  - six.
  - intros. now apply sh_l_mod.
  - intros. now apply sh_l_apart.
  - intros. now apply (sh_l_le 8).
  - loc.
Qed.
Lemma key64b_loads key n : bytes_ok key -> (length key <= 8 * n)%nat -> key64b key n = loads load64b 8 n key.
Proof.
  apply (array_loads 64 8 load64b store64b (sh_b 8) codec64b); try discriminate; try reflexivity.
  - six.
  - intros. now apply sh_b_mod.
  - intros. now apply sh_b_apart.
  - intros. now apply (sh_b_le 8).
  - loc.
Qed.

Lemma store16l_array_eq ws o n : (o + n <= 2 * length ws)%nat -> store16l_array ws o n = slice o n (stores store16l ws).
Proof. intros H. apply (array_stores 16 2 load16l store16l (sh_l 2) codec16l); [discriminate|reflexivity|six|intros; now apply sh_l_mod|exact H]. Qed.
Lemma store16b_array_eq ws o n : (o + n <= 2 * length ws)%nat -> store16b_array ws o n = slice o n (stores store16b ws).
Proof. intros H. apply (array_stores 16 2 load16b store16b (sh_b 2) codec16b); [discriminate|reflexivity|six|intros; now apply sh_b_mod|exact H]. Qed.
Lemma store32l_array_eq ws o n : (o + n <= 4 * length ws)%nat -> store32l_array ws o n = slice o n (stores store32l ws).
Proof. intros H. apply (array_stores 32 4 load32l store32l (sh_l 4) codec32l); [discriminate|reflexivity|six|intros; now apply sh_l_mod|exact H]. Qed.
Lemma store32b_array_eq ws o n : (o + n <= 4 * length ws)%nat -> store32b_array ws o n = slice o n (stores store32b ws).
Proof. intros H. apply (array_stores 32 4 load32b store32b (sh_b 4) codec32b); [discriminate|reflexivity|six|intros; now apply sh_b_mod|exact H]. Qed.
Lemma store64l_array_eq ws o n : (o + n <= 8 * length ws)%nat -> store64l_array ws o n = slice o n (stores store64l ws).
Proof. intros H. apply (array_stores 64 8 load64l store64l (sh_l 8) codec64l); [discriminate|reflexivity|six|intros; now apply sh_l_mod|exact H]. Qed.
Lemma store64b_array_eq ws o n : (o + n <= 8 * length ws)%nat -> store64b_array ws o n = slice o n (stores store64b ws).
Proof. intros H. apply (array_stores 64 8 load64b store64b (sh_b 8) codec64b); [discriminate|reflexivity|six|intros; now apply sh_b_mod|exact H]. Qed.

Lemma load16l_bytes l o : bytes_ok l -> load16l l o = le_val [b_ l o; b_ l (o + 1)].
Proof. intros H. rewrite load16l_val by exact H. unfold bs_. cbn [seq map]. rewrite Nat.add_0_r. reflexivity. Qed.
Lemma stores_bytes x :
  store16l x = le_bytes 2 x /\ store32l x = le_bytes 4 x /\ store64l x = le_bytes 8 x /\
  store16b x = be_bytes 2 x /\ store32b x = be_bytes 4 x /\ store64b x = be_bytes 8 x.
Proof. exact (conj (store16l_bytes x) (conj (store32l_bytes x) (conj (store64l_bytes x) (conj (store16b_bytes x) (conj (store32b_bytes x) (store64b_bytes x)))))). Qed.
Lemma codecs : codec 16 2 load16l store16l /\ codec 32 4 load32l store32l /\ codec 64 8 load64l store64l /\
  codec 16 2 load16b store16b /\ codec 32 4 load32b store32b /\ codec 64 8 load64b store64b.
Proof. exact (conj codec16l (conj codec32l (conj codec64l (conj codec16b (conj codec32b codec64b))))). Qed.
Lemma array_load_all src n : bytes_ok src ->
  ((length src <= 2 * n)%nat -> load16l_array src (repeat 0 n) (length src) = loads load16l 2 n src /\
                                load16b_array src (repeat 0 n) (length src) = loads load16b 2 n src) /\
  ((length src <= 4 * n)%nat -> load32l_array src (repeat 0 n) (length src) = loads load32l 4 n src /\
                                load32b_array src (repeat 0 n) (length src) = loads load32b 4 n src) /\
  ((length src <= 8 * n)%nat -> load64l_array src (repeat 0 n) (length src) = loads load64l 8 n src /\
                                load64b_array src (repeat 0 n) (length src) = loads load64b 8 n src).
Proof.
  intros H. split; [|split]; intros L; split.
  - now apply key16l_loads.
  - now apply key16b_loads.
  - now apply key32l_loads.
  - now apply key32b_loads.
  - now apply key64l_loads.
  - now apply key64b_loads.
Qed.
Lemma array_store_all ws o n :
  ((o + n <= 2 * length ws)%nat -> store16l_array ws o n = slice o n (stores store16l ws) /\
                                   store16b_array ws o n = slice o n (stores store16b ws)) /\
  ((o + n <= 4 * length ws)%nat -> store32l_array ws o n = slice o n (stores store32l ws) /\
                                   store32b_array ws o n = slice o n (stores store32b ws)) /\
  ((o + n <= 8 * length ws)%nat -> store64l_array ws o n = slice o n (stores store64l ws) /\
                                   store64b_array ws o n = slice o n (stores store64b ws)).
Proof.
  split; [|split]; intros L; split.
  - now apply store16l_array_eq.
  - now apply store16b_array_eq.
  - now apply store32l_array_eq.
  - now apply store32b_array_eq.
  - now apply store64l_array_eq.
  - now apply store64b_array_eq.
Qed.
