(** SHA-2 of the library is SHA-2 of FIPS 180-4. *)
From Coq Require Import NArith Arith List Bool Lia.
From Verif Require Import Lib.Word Lib.Res Lib.Bytes Lib.WordSpec Lib.MemLemmas Lib.Lists Lib.WordsP Model.LoadStore Model.HashApi Model.Md Model.Sha2
  Spec.Words Spec.Modes Spec.Hash Spec.Sha2 Proof.LoadStoreP Proof.MdP Proof.ChachaP.
Import ListNotations.
Local Open Scope N_scope.

Ltac explode8 x H := do 8 (destruct x as [|? x]; [discriminate H|]); destruct x; [|discriminate H].
Lemma ch_eq w x y z : inw w x -> inw w z -> s2_ch x y z = Ch w x y z.
Proof.
  intros Hx Hz. unfold s2_ch, Ch, not_w. apply N.bits_inj. intros i. rewrite !N.lxor_spec, !N.land_spec, N.lxor_spec.
  replace (2 ^ w - 1 - x) with (N.lnot x w).
  - destruct (N.lt_ge_cases i w) as [L|L].
    + rewrite N.lnot_spec_low by exact L. now destruct (N.testbit x i), (N.testbit y i), (N.testbit z i).
    + assert (Bx : N.testbit x i = false) by (now apply (inw_high w)).
      assert (Bz : N.testbit z i = false) by (now apply (inw_high w)).
      rewrite Bx, Bz. cbn. now rewrite !andb_false_r.
  - rewrite <- N.pred_sub, <- N.ones_equiv. destruct (N.eq_dec x 0) as [->|Nz].
    + unfold N.lnot. rewrite N.lxor_0_l. lia.
    + rewrite <- N.lnot_sub_low; [unfold N.lnot; reflexivity|]. apply N.log2_lt_pow2; [lia|exact Hx].
Qed.
Lemma maj_eq x y z : s2_maj x y z = Maj x y z.
Proof.
  unfold s2_maj, Maj, xor3. apply N.bits_inj. intros i.
  rewrite !N.lor_spec, !N.lxor_spec, !N.land_spec, N.lor_spec. now destruct (N.testbit x i), (N.testbit y i), (N.testbit z i).
Qed.
(** the registers in the order of the standard, register [j] being a *)
Definition turn (j : nat) (x : list N) : list N := map (fun k => nth ((j + k) mod 8)%nat x 0) (seq 0 8).
Lemma turn_0 x : length x = 8%nat -> turn 0 x = x.
Proof. intros H. explode8 x H. reflexivity. Qed.

Section Gen.
  Variables (p : sha2p) (f : sha2_fn).
  Let w := f_w f.
  Hypothesis Hw : s2_w p = w.
  Hypothesis Hw8 : (0 < N.to_nat (w / 8))%nat.
  Hypothesis HS0 : forall x, inw w x -> s2_S0 p x = f_sigma0 f x.
  Hypothesis HS1 : forall x, inw w x -> s2_S1 p x = f_sigma1 f x.
  Hypothesis HE0 : forall x, inw w x -> s2_E0 p x = f_Sigma0 f x.
  Hypothesis HE1 : forall x, inw w x -> s2_E1 p x = f_Sigma1 f x.
  Hypothesis Hrc : s2_rc p = f_k f.
  Hypothesis Hload : forall m i, bytes_ok m -> ((N.to_nat (w / 8)) * 16 <= length m)%nat -> (i < 16)%nat ->
    s2_load p m ((N.to_nat (w / 8)) * i) = nth i (be_words (N.to_nat (w / 8)) 16 m) 0.
  Hypothesis Hbw : forall m, bytes_ok m -> words_ok w (be_words (N.to_nat (w / 8)) 16 m).

  Lemma padd x y : plus_w w x y = wadd w x y.
  Proof. symmetry. apply plus_w_wadd. Qed.
  Lemma words_round j rc rk x : words_ok w x -> words_ok w (s2_round p j rc rk x).
  Proof.
    intros H. unfold s2_round. apply words_upd; [apply words_upd; [exact H|]|]; rewrite Hw; apply inw_wadd.
  Qed.
  Lemma round_turn j rc rk x : (j < 8)%nat -> length x = 8%nat -> words_ok w x ->
    turn ((j + 7) mod 8) (s2_round p j rc rk x) = sha2_step f rc rk (turn j x).
  Proof.
    intros Hj Hl Hx. explode8 x Hl. unfold words_ok in Hx. rewrite !Forall_cons_iff in Hx.
    destruct Hx as (X0 & X1 & X2 & X3 & X4 & X5 & X6 & X7 & _).
    unfold sha2_step, turn. cbn [seq map].
    do 8 (destruct j as [|j]; [
      cbn [Nat.add]; cbv [Nat.modulo Nat.divmod Nat.sub]; cbn [fst snd]; unfold s2_round;
      cbn [Nat.add]; cbv [Nat.modulo Nat.divmod Nat.sub]; cbn [fst snd nth upd];
      rewrite Hw, !HE0, !HE1, maj_eq, (ch_eq w), !padd by assumption;
      repeat (apply f_equal2; [rewrite ?wadd_assoc; reflexivity|]); try reflexivity|]). lia.
  Qed.

  (** the message schedule *)
  Lemma schedule_length n ws : length (schedule f n ws) = (length ws + n)%nat.
  Proof. revert ws. induction n as [|n IH]; intros ws; cbn [schedule]; [lia|]. rewrite IH, app_length. cbn [length]. lia. Qed.
  Lemma schedule_low n ws t : (t < length ws)%nat -> nth t (schedule f n ws) 0 = nth t ws 0.
  Proof.
    revert ws. induction n as [|n IH]; intros ws Ht; cbn [schedule]; [reflexivity|].
    rewrite IH by (rewrite app_length; lia). now apply app_nth1.
  Qed.
  Lemma schedule_high n ws t : (16 <= length ws <= t)%nat -> (t < length ws + n)%nat ->
    let W k := nth (t - k) (schedule f n ws) 0 in
    nth t (schedule f n ws) 0 =
    plus_w w (plus_w w (plus_w w (f_sigma1 f (W 2%nat)) (W 7%nat)) (f_sigma0 f (W 15%nat))) (W 16%nat).
  Proof.
    cbv zeta. revert ws. induction n as [|n IH]; intros ws Hl Ht; [lia|]. cbn [schedule].
    destruct (Nat.eq_dec t (length ws)) as [->|Ne].
    - rewrite (schedule_low n _ (length ws)) by (rewrite app_length; cbn [length]; lia).
      rewrite app_nth2, Nat.sub_diag by lia. cbn [nth].
      rewrite !schedule_low, !app_nth1 by (rewrite ?app_length; cbn [length]; lia). reflexivity.
    - apply IH; rewrite app_length; cbn [length]; lia.
  Qed.
  Lemma schedule_ok n ws : words_ok w ws -> words_ok w (schedule f n ws).
  Proof.
    revert ws. induction n as [|n IH]; intros ws H; cbn [schedule]; [exact H|]. apply IH. unfold words_ok.
    apply Forall_app. split; [exact H|]. constructor; [|constructor]. rewrite padd. apply inw_wadd.
  Qed.
  Lemma steps_snoc ks ws t v : (t < length ks)%nat -> (t < length ws)%nat ->
    sha2_steps f (firstn (S t) ks) (firstn (S t) ws) v =
    sha2_step f (nth t ks 0) (nth t ws 0) (sha2_steps f (firstn t ks) (firstn t ws) v).
  Proof.
    unfold sha2_steps. intros Hk Hw'. rewrite (firstn_S_nth ks t 0) by exact Hk. rewrite (firstn_S_nth ws t 0) by exact Hw'.
    rewrite combine_snoc, fold_left_app by (rewrite !firstn_length; lia). reflexivity.
  Qed.
  Lemma step_turn t rc rk x : length x = 8%nat -> words_ok w x ->
    turn (s2_first (S t)) (s2_round p (s2_first t) rc rk x) = sha2_step f rc rk (turn (s2_first t) x).
  Proof.
    intros Hl Hx. rewrite <- round_turn; [|unfold s2_first; apply Nat.mod_upper_bound; lia|assumption|assumption].
    f_equal. unfold s2_first. assert (M := Nat.mod_upper_bound t 8 ltac:(lia)).
    replace (S t) with (t + 1)%nat by lia. rewrite <- (Nat.add_mod_idemp_l t 1 8) by lia.
    destruct (t mod 8)%nat as [|[|[|[|[|[|[|[|u]]]]]]]]; try reflexivity; lia.
  Qed.
  Lemma round_length j rc rk x : length (s2_round p j rc rk x) = length x.
  Proof. unfold s2_round. now rewrite !length_upd. Qed.

  (** one block: [n] rounds, a multiple of 8 *)
  Definition rounds_of (r : N) : nat := (16 + 8 * N.to_nat ((r - 16 + 7) / 8))%nat.
  Lemma rounds_eq r h m : length h = 8%nat -> words_ok w h -> blk (N.to_nat (w / 8) * 16) m ->
    (rounds_of r <= length (f_k f))%nat ->
    s2_rounds p r h m = Ok (sha2_compress f (rounds_of r) h m).
  Proof.
    intros Hh Hwh [Hm Bm] Hr. unfold s2_rounds, rounds_of in *. rewrite Hw. set (g := N.to_nat ((r - 16 + 7) / 8)) in *.
    set (k0 := be_words (N.to_nat (w / 8)) 16 m).
    assert (Lk : length k0 = 16%nat) by apply length_be_words.
    assert (E0 : map (fun i => s2_load p m (N.to_nat (w / 8) * i)%nat) (seq 0 16) = k0).
    { transitivity (map (fun i => nth i k0 0) (seq 0 16)); [|now apply map_nth_seq].
      apply map_ext_in. intros i Hi. apply in_seq in Hi. apply Hload; [exact Bm|lia|lia]. }
    rewrite E0. clear E0. set (W := schedule f (8 * g) k0).
    assert (LW : length W = (16 + 8 * g)%nat) by (unfold W; rewrite schedule_length; lia).
    assert (OW : words_ok w W) by (apply schedule_ok; now apply Hbw).
    set (P := fun (t : nat) (x : list N) => length x = 8%nat /\ words_ok w x /\
      turn (s2_first t) x = sha2_steps f (firstn t (f_k f)) (firstn t W) h).
    assert (St : forall t x v, (t < 16 + 8 * g)%nat -> P t x -> v = nth t W 0 ->
      P (S t) (s2_round p (s2_first t) (nth t (f_k f) 0) v x)).
    { intros t x v Ht (L & O & T) ->. repeat split.
      - now rewrite round_length.
      - now apply words_round.
      - rewrite steps_snoc by lia. rewrite <- T. now apply step_turn. }
    destruct (mfor_inv P 16 0 (fun i x => let* rc := get (s2_rc p) i in Ok (s2_round p (s2_first i) rc (nth i k0 0) x)) h) as (x & E1 & P1).
    { intros j y Hj HP. rewrite (get_ok _ _ 0) by (rewrite Hrc; lia). cbn [bind]. rewrite Hrc.
      eexists. split; [reflexivity|]. apply St; [lia|exact HP|]. unfold W. now rewrite schedule_low by lia. }
    { repeat split; [exact Hh|exact Hwh|]. rewrite turn_0 by exact Hh. reflexivity. }
    rewrite E1. cbn [bind].
    set (Q := fun (t : nat) (y : list N * list N) => P t (snd y) /\ length (fst y) = 16%nat /\
      forall j, (t <= j + 16)%nat -> (j < t)%nat -> nth (j mod 16) (fst y) 0 = nth j W 0).
    destruct (mfor_inv Q (8 * g) 16 (fun i y => let* rc := get (s2_rc p) i in
                let '(k, v) := s2_ki p (fst y) i in Ok (k, s2_round p (s2_first i) rc v (snd y))) (k0, x)) as ([k1 y] & E2 & P2).
    { intros t [k y] Ht (HP & Lk' & HK). cbn [fst snd] in *. rewrite (get_ok _ _ 0) by (rewrite Hrc; lia). cbn [bind]. rewrite Hrc.
      unfold s2_ki. cbv zeta. eexists. split; [reflexivity|].
      assert (V : wadd (s2_w p) (nth ((t + 0) mod 16) k 0)
         (wadd (s2_w p) (wadd (s2_w p) (s2_S0 p (nth ((t + 1) mod 16) k 0)) (nth ((t + 9) mod 16) k 0)) (s2_S1 p (nth ((t + 14) mod 16) k 0))) =
         nth t W 0).
      { rewrite Hw. unfold W. rewrite schedule_high by lia. fold W. cbv zeta.
        rewrite !padd.
        replace (nth ((t + 0) mod 16) k 0) with (nth (t - 16) W 0).
        2: { rewrite <- HK by lia. f_equal. replace (t + 0)%nat with (t - 16 + 1 * 16)%nat by lia. now rewrite Nat.mod_add by lia. }
        replace (nth ((t + 1) mod 16) k 0) with (nth (t - 15) W 0).
        2: { rewrite <- HK by lia. f_equal. replace (t + 1)%nat with (t - 15 + 1 * 16)%nat by lia. now rewrite Nat.mod_add by lia. }
        replace (nth ((t + 9) mod 16) k 0) with (nth (t - 7) W 0).
        2: { rewrite <- HK by lia. f_equal. replace (t + 9)%nat with (t - 7 + 1 * 16)%nat by lia. now rewrite Nat.mod_add by lia. }
        replace (nth ((t + 14) mod 16) k 0) with (nth (t - 2) W 0).
        2: { rewrite <- HK by lia. f_equal. replace (t + 14)%nat with (t - 2 + 1 * 16)%nat by lia. now rewrite Nat.mod_add by lia. }
        rewrite HS0, HS1 by (apply words_nth; exact OW).
        rewrite (wadd_comm w (nth (t - 16) W 0)). f_equal.
        rewrite (wadd_comm w (wadd w _ _) (f_sigma1 f _)). rewrite !wadd_assoc. f_equal. apply wadd_comm. }
      rewrite V. split; [|split]; cbn [fst snd].
      - apply St; [lia|exact HP|reflexivity].
      - now rewrite length_upd.
      - intros j Hj1 Hj2. rewrite nth_upd, Lk', (proj2 (Nat.ltb_lt (t mod 16) 16)), andb_true_r by (apply Nat.mod_upper_bound; lia).
        destruct (Nat.eq_dec j t) as [->|Ne]; [now rewrite Nat.eqb_refl|].
        replace (j mod 16 =? t mod 16)%nat with false; [apply HK; lia|]. symmetry. apply Nat.eqb_neq. intros C.
        assert (A := Nat.div_mod j 16 ltac:(lia)). assert (B := Nat.div_mod t 16 ltac:(lia)). lia. }
    { split; [exact P1|]. cbn [fst]. split; [exact Lk|]. intros j _ Hj. rewrite Nat.mod_small by lia. unfold W. now rewrite schedule_low by lia. }
    rewrite E2. cbn [bind snd]. f_equal. unfold sha2_compress. replace (16 + 8 * g - 16)%nat with (8 * g)%nat by lia. fold w k0 W.
    destruct P2 as ((L & O & T) & _). cbn [snd] in T, L. 
    assert (F : s2_first (16 + 8 * g) = 0%nat).
    { unfold s2_first. replace (16 + 8 * g)%nat with ((2 + g) * 8)%nat by lia. now rewrite Nat.mod_mul by lia. }
    rewrite F, turn_0 in T by exact L. rewrite T. rewrite (firstn_all2 (n := 16 + 8 * g) W) by lia.
    apply map_ext. intros q. rewrite padd. reflexivity.
  Qed.
  Lemma steps_ok ks ws v : length v = 8%nat -> length (sha2_steps f ks ws v) = 8%nat.
  Proof.
    unfold sha2_steps. generalize (combine ks ws). intros l. revert v. induction l as [|q l IH]; intros v Hv; [exact Hv|].
    cbn [fold_left]. apply IH. explode8 v Hv. reflexivity.
  Qed.
  Lemma compress_ok n h m : length h = 8%nat -> length (sha2_compress f n h m) = 8%nat /\ words_ok w (sha2_compress f n h m).
  Proof.
    intros Hh. unfold sha2_compress. split.
    - rewrite map_length, combine_length, steps_ok, Hh by exact Hh. reflexivity.
    - unfold words_ok. rewrite Forall_map. apply Forall_forall. intros q _. rewrite padd. apply inw_wadd.
  Qed.
End Gen.

Section Inst.
  (** both sizes at once: word size [8 * k] *)
  Variables (p : sha2p) (f : sha2_fn) (md_of : N -> mdp) (k limbs : nat).
  Hypothesis Hk : (0 < k)%nat.
  Hypothesis Hkw : f_w f = 8 * N.of_nat k.
  Hypothesis Hw : s2_w p = f_w f.
  Hypothesis HS0 : forall x, inw (f_w f) x -> s2_S0 p x = f_sigma0 f x.
  Hypothesis HS1 : forall x, inw (f_w f) x -> s2_S1 p x = f_sigma1 f x.
  Hypothesis HE0 : forall x, inw (f_w f) x -> s2_E0 p x = f_Sigma0 f x.
  Hypothesis HE1 : forall x, inw (f_w f) x -> s2_E1 p x = f_Sigma1 f x.
  Hypothesis Hrc : s2_rc p = f_k f.
  Hypothesis Hload : forall m i, bytes_ok m -> (k * 16 <= length m)%nat -> (i < 16)%nat -> s2_load p m (k * i) = nth i (be_words k 16 m) 0.
  Lemma block_eq r h m : length h = 8%nat -> words_ok (f_w f) h -> blk (k * 16) m -> (rounds_of r <= length (f_k f))%nat ->
    s2_rounds p r h m = Ok (sha2_compress f (rounds_of r) h m) /\
    length (sha2_compress f (rounds_of r) h m) = 8%nat /\ words_ok (f_w f) (sha2_compress f (rounds_of r) h m).
  Proof.
    assert (Ek : N.to_nat (f_w f / 8) = k) by (rewrite Hkw, N.mul_comm, N.div_mul by discriminate; apply Nat2N.id).
    intros Hh Wh Hm Hr. split.
    - apply (rounds_eq p f); try assumption; rewrite Ek; try assumption.
      intros m' Bm'. now apply be_words_inw.
    - apply compress_ok; try assumption. 
  Qed.
End Inst.

Ltac rot_eq := intros x Hx; cbn -[N.lxor ror rotr wshr shr]; unfold xor3; rewrite N.lxor_assoc, ?ror_rotr by (reflexivity || lia || exact Hx);
  unfold shr; rewrite ?wshr_div; reflexivity.
Definition words8 (w : N) (h : list N) : Prop := length h = 8%nat /\ words_ok w h.

Lemma f256_rc : sha2_256_rc = f_k f256.
Proof. vm_compute. reflexivity. Qed.
Lemma f512_rc : sha2_512_rc = f_k f512.
Proof. vm_compute. reflexivity. Qed.
Definition rounds32 (r : N) : nat := rounds_of (if r =? 0 then 64 else r).
Definition rounds64 (r : N) : nat := rounds_of (if r =? 0 then 80 else r).
Definition siv32 (n : nat) : list N := if (28 <? n)%nat then iv256 else iv224.
Definition siv64 (n : nat) : list N := if (48 <? n)%nat then iv512 else iv384.
Lemma siv32_eq n : sha2_256_iv n = siv32 n.
Proof. unfold sha2_256_iv, siv32. destruct (28 <? n)%nat; vm_compute; reflexivity. Qed.
Lemma siv64_eq n : sha2_512_iv n = siv64 n.
Proof. unfold sha2_512_iv, siv64. destruct (48 <? n)%nat; vm_compute; reflexivity. Qed.
Lemma siv32_ok n : words8 32 (siv32 n).
Proof. rewrite <- siv32_eq. unfold sha2_256_iv, words8. destruct (28 <? n)%nat; split; try reflexivity; repeat (constructor; [reflexivity|]); constructor. Qed.
Lemma siv64_ok n : words8 64 (siv64 n).
Proof. rewrite <- siv64_eq. unfold sha2_512_iv, words8. destruct (48 <? n)%nat; split; try reflexivity; repeat (constructor; [reflexivity|]); constructor. Qed.

Lemma sha2_256_computes r n : (n <= 32)%nat -> (rounds32 r <= 128)%nat ->
  computes hash_sha2_256 r [] n 32 (fun len => N.of_nat len < 2 ^ 61) (sha2_32 (rounds32 r) (siv32 n)).
Proof.
  intros Hn Hr. set (r' := if r =? 0 then 64 else r).
  eapply computes_weaken; [apply (rmd_computes sha2_256_md sha2_256_start 8 1 be_bytes (sha2_compress f256 (rounds_of r')) (words8 32) (be_string 4) (siv32 n) r r')|..];
    try md_side; try exact Hn.
  - intros x. apply blk_be_bytes.
  - intros l Hl Wl. cbn [mp_len sha2_256_md]. rewrite len_be by exact Wl. now rewrite Hl.
  - apply siv32_ok.
  - intros h b [Hh Wh] Hb. apply (block_eq sha2_256p f256 4); [lia|reflexivity|reflexivity|rot_eq|rot_eq|rot_eq|rot_eq|apply f256_rc| |exact Hh|exact Wh|exact Hb|].
    + intros m i Bm Lm Hi. apply nth_load32b; [exact Bm|lia|exact Hi].
    + rewrite <- f256_rc. exact Hr.
  - intros h i k [Hh _] Hk. cbn [mp_out sha2_256_md]. rewrite store32b_array_eq, stores32b_be; [reflexivity|]. rewrite Hh. exact Hk.
  - intros b. unfold sha2_256_start. now rewrite siv32_eq.
  - intros x Hx. apply (len_bits 1 (2 ^ 61)); [reflexivity|exact Hx].
  - intros m k _. reflexivity.
Qed.
Lemma sha2_512_computes r n : (n <= 64)%nat -> (rounds64 r <= 160)%nat ->
  computes hash_sha2_512 r [] n 64 (fun len => N.of_nat len < 2 ^ 125) (sha2_64 (rounds64 r) (siv64 n)).
Proof.
  intros Hn Hr. set (r' := if r =? 0 then 80 else r).
  eapply computes_weaken; [apply (rmd_computes sha2_512_md sha2_512_start 16 2 be_bytes (sha2_compress f512 (rounds_of r')) (words8 64) (be_string 8) (siv64 n) r r')|..];
    try md_side; try exact Hn.
  - intros x. apply blk_be_bytes.
  - intros l Hl Wl. cbn [mp_len sha2_512_md]. rewrite len_be by exact Wl. now rewrite Hl.
  - apply siv64_ok.
  - intros h b [Hh Wh] Hb. apply (block_eq sha2_512p f512 8); [lia|reflexivity|reflexivity|rot_eq|rot_eq|rot_eq|rot_eq|apply f512_rc| |exact Hh|exact Wh|exact Hb|].
    + intros m i Bm Lm Hi. apply nth_load64b; [exact Bm|lia|exact Hi].
    + rewrite <- f512_rc. exact Hr.
  - intros h i k [Hh _] Hk. cbn [mp_out sha2_512_md]. rewrite store64b_array_eq, stores64b_be; [reflexivity|]. rewrite Hh. exact Hk.
  - intros b. unfold sha2_512_start. now rewrite siv64_eq.
  - intros x Hx. apply (len_bits 2 (2 ^ 125)); [reflexivity|exact Hx].
  - intros m k _. reflexivity.
Qed.

Lemma sha256_computes n : (28 < n <= 32)%nat -> computes hash_sha2_256 0 [] n n (fun len => N.of_nat len < 2 ^ 61) sha256.
Proof.
  intros H. eapply computes_weaken; [apply (sha2_256_computes 0 n)|..]; try lia.
  - vm_compute. lia.
  - intros x Hx. exact Hx.
  - intros m k _. unfold sha256, siv32. now rewrite (proj2 (Nat.ltb_lt 28 n)) by lia.
Qed.
Lemma sha224_computes n : (n <= 28)%nat -> computes hash_sha2_256 0 [] n n (fun len => N.of_nat len < 2 ^ 61) sha224.
Proof.
  intros H. eapply computes_weaken; [apply (sha2_256_computes 0 n)|..]; try lia.
  - vm_compute. lia.
  - intros x Hx. exact Hx.
  - intros m k Hk. unfold sha224, siv32. rewrite (proj2 (Nat.ltb_ge 28 n)) by lia. apply firstn_of_firstn. lia.
Qed.
Lemma sha512_computes n : (48 < n <= 64)%nat -> computes hash_sha2_512 0 [] n n (fun len => N.of_nat len < 2 ^ 125) sha512.
Proof.
  intros H. eapply computes_weaken; [apply (sha2_512_computes 0 n)|..]; try lia.
  - vm_compute. lia.
  - intros x Hx. exact Hx.
  - intros m k _. unfold sha512, siv64. now rewrite (proj2 (Nat.ltb_lt 48 n)) by lia.
Qed.
Lemma sha384_computes n : (n <= 48)%nat -> computes hash_sha2_512 0 [] n n (fun len => N.of_nat len < 2 ^ 125) sha384.
Proof.
  intros H. eapply computes_weaken; [apply (sha2_512_computes 0 n)|..]; try lia.
  - vm_compute. lia.
  - intros x Hx. exact Hx.
  - intros m k Hk. unfold sha384, siv64. rewrite (proj2 (Nat.ltb_ge 48 n)) by lia. apply firstn_of_firstn. lia.
Qed.
