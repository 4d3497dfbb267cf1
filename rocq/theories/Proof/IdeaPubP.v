(** IDEA is the published cipher. *)
From Coq Require Import NArith ZArith PArith Arith List Bool Lia.
From Verif Require Import Lib.Word Lib.Res Lib.Bytes Lib.Bij Lib.XorSolve Lib.Lists Lib.WordSpec Lib.WordsP Lib.BlockLemmas Spec.Words Spec.Block Spec.Cipher Spec.Arx
  Model.LoadStore Model.BlockApi Model.Idea Model.Ciphers
  Proof.LoadStoreP Proof.IdeaP Proof.CiphersP Proof.Sha1P Proof.RekeyP Proof.ArxP Proof.SpeckPubP.
Import ListNotations.
Local Open Scope N_scope.

Lemma idea_mul_times a b : inw 16 a -> inw 16 b -> idea_mul a b = idea_times a b.
Proof.
  intros Ha Hb. pose proof (idea_mul_spec a b Ha Hb) as E. pose proof (idea_mul_inw a b) as I. unfold inw in I. change (2 ^ 16) with 65536 in I.
  unfold idea_times. set (A := if a =? 0 then 65536 else a). set (B := if b =? 0 then 65536 else b). cbv zeta.
  assert (EA : iv a = Z.of_N A) by (unfold iv, A; destruct (a =? 0); reflexivity).
  assert (EB : iv b = Z.of_N B) by (unfold iv, B; destruct (b =? 0); reflexivity).
  rewrite EA, EB in E. rewrite <- N2Z.inj_mul in E. change 65537%Z with (Z.of_N 65537) in E. rewrite <- N2Z.inj_mod in E.
  set (m := (A * B) mod 65537) in *. unfold iv in E. destruct (N.eqb_spec (idea_mul a b) 0) as [Z|Z].
  - rewrite Z. assert (M : m = 65536) by lia. now rewrite M.
  - assert (M : m = idea_mul a b) by lia. rewrite M. symmetry. now apply N.mod_small.
Qed.

(** ** The words of the key *)
Lemma le_val_app l m : le_val (l ++ m) = le_val l + 256 ^ N.of_nat (length l) * le_val m.
Proof.
  induction l as [|x l IH]; [cbn [app le_val length]; change (N.of_nat 0) with 0; rewrite N.pow_0_r; lia|].
  cbn [app le_val length]. rewrite IH, Nat2N.inj_succ, N.pow_succ_r'. lia.
Qed.
Lemma be_val_app l m : be_val (l ++ m) = be_val l * 256 ^ N.of_nat (length m) + be_val m.
Proof. unfold be_val. rewrite rev_app_distr, le_val_app, rev_length. lia. Qed.
Lemma be_val_word l t : bytes_ok l -> length l = 16%nat -> (t < 8)%nat ->
  be_val l / 2 ^ (16 * N.of_nat (7 - t)) mod 2 ^ 16 = be_val (slice (2 * t) 2 l).
Proof.
  intros B L Ht. rewrite <- (firstn_skipn (2 * t) l) at 1. rewrite <- (firstn_skipn 2 (skipn (2 * t) l)) at 1.
  change (firstn 2 (skipn (2 * t) l)) with (slice (2 * t) 2 l).
  set (a := firstn (2 * t) l). set (b := slice (2 * t) 2 l). set (c := skipn 2 (skipn (2 * t) l)).
  assert (Lb : length b = 2%nat) by (unfold b, slice; rewrite firstn_length, skipn_length; lia).
  assert (Lc : length c = (14 - 2 * t)%nat) by (unfold c; rewrite !skipn_length; lia).
  rewrite !be_val_app, app_length, Lb, Lc.
  assert (Hb : be_val b < 2 ^ 16) by (apply (be_val_inw 2 16); [unfold b; now apply bytes_slice|lia|reflexivity]).
  assert (Hc : be_val c < 256 ^ N.of_nat (14 - 2 * t)).
  { rewrite <- Lc. apply be_val_bound. unfold c. unfold bytes_ok in *. rewrite Forall_forall in *. intros x Hx. apply B.
    rewrite <- (firstn_skipn (2 * t) l). apply in_or_app. right. rewrite <- (firstn_skipn 2 (skipn (2 * t) l)). apply in_or_app. now right. }
  replace (2 ^ (16 * N.of_nat (7 - t))) with (256 ^ N.of_nat (14 - 2 * t)).
  2:{ change 256 with (2 ^ 8). rewrite <- N.pow_mul_r. f_equal. lia. }
  replace (256 ^ N.of_nat (2 + (14 - 2 * t))) with (2 ^ 16 * 256 ^ N.of_nat (14 - 2 * t)).
  2:{ rewrite Nat2N.inj_add, N.pow_add_r. reflexivity. }
  set (q := 256 ^ N.of_nat (14 - 2 * t)) in *. clearbody q a b c. clear - Hb Hc.
  replace (be_val a * (2 ^ 16 * q) + (be_val b * q + be_val c)) with (be_val c + (be_val a * 2 ^ 16 + be_val b) * q) by lia.
  rewrite N.div_add by lia. rewrite (N.div_small (be_val c)) by exact Hc. rewrite N.add_0_l.
  rewrite N.add_comm, N.mod_add by discriminate. now apply N.mod_small.
Qed.

Lemma word128_rot K t : inw 128 K -> (t < 8)%nat ->
  let w j := K / 2 ^ (16 * N.of_nat (7 - j)) mod 2 ^ 16 in
  rotl 128 K 25 / 2 ^ (16 * N.of_nat (7 - t)) mod 2 ^ 16 =
  mask 16 (N.lor (N.shiftl (w ((t + 1) mod 8)%nat) 9) (wshr (w ((t + 2) mod 8)%nat) 7)).
Proof.
  intros HK Ht w. subst w. cbv beta. rewrite <- rol_rotl by (exact HK || discriminate).
  rewrite <- !(mask_mod 16), <- !N.shiftr_div_pow2. apply N.bits_inj. intros b. rewrite !mask_spec.
  destruct (N.ltb_spec b 16) as [Hb|Hb]; [|reflexivity]. cbn [andb].
  rewrite N.lor_spec, wshr_spec, !N.shiftr_spec by lia. rewrite mask_spec, N.shiftr_spec by lia.
  assert (C : b < 9 \/ 9 <= b) by lia. destruct C as [C|C].
  - rewrite N.shiftl_spec_low by exact C. cbn [orb]. rewrite (proj2 (N.ltb_lt (b + 7) 16)) by lia. cbn [andb].
    do 8 (destruct t as [|t]; [cbn [Nat.add Nat.sub]; match goal with |- context [(?a mod ?b)%nat] => let v := eval compute in (a mod b)%nat in change (a mod b)%nat with v end;
      cbn [Nat.sub N.of_nat Pos.of_succ_nat N.mul Pos.succ Pos.mul Pos.add];
      rewrite rol_spec by (exact HK || lia); f_equal; match goal with |- (if ?x <=? ?y then _ else _) = _ => destruct (N.leb_spec x y); lia end|]). lia.
  - rewrite N.shiftl_spec_high' by exact C. rewrite mask_spec, (proj2 (N.ltb_lt (b - 9) 16)) by lia. cbn [andb]. rewrite N.shiftr_spec by lia.
    rewrite (proj2 (N.ltb_ge (b + 7) 16)) by lia. cbn [andb]. rewrite orb_false_r.
    do 8 (destruct t as [|t]; [cbn [Nat.add Nat.sub]; match goal with |- context [(?a mod ?b)%nat] => let v := eval compute in (a mod b)%nat in change (a mod b)%nat with v end;
      cbn [Nat.sub N.of_nat Pos.of_succ_nat N.mul Pos.succ Pos.mul Pos.add];
      rewrite rol_spec by (exact HK || lia); f_equal; match goal with |- (if ?x <=? ?y then _ else _) = _ => destruct (N.leb_spec x y); lia end|]). lia.
Qed.

Lemma iter_rot_inw K n : inw 128 K -> inw 128 (Nat.iter n (fun k => rotl 128 k 25) K).
Proof. intros H. induction n as [|n IH]; [exact H|]. cbn [Nat.iter]. change (inw 128 (rotl 128 (Nat.iter n (fun k => rotl 128 k 25) K) 25)). rewrite <- rol_rotl by (exact IH || discriminate). wb. Qed.

Lemma subkey_next key i : inw 128 (be_val key) -> (8 <= i)%nat ->
  let j := (i / 8 * 8 - 8)%nat in
  idea_subkey key i = mask 16 (N.lor (N.shiftl (idea_subkey key (j + (i + 1) mod 8)) 9) (wshr (idea_subkey key (j + (i + 2) mod 8)) 7)).
Proof.
  intros HK Hi j. subst j.
  pose proof (Nat.div_mod i 8 ltac:(lia)) as D. pose proof (Nat.mod_upper_bound i 8 ltac:(lia)) as U.
  set (t := (i mod 8)%nat) in *. destruct (i / 8)%nat as [|q] eqn:Eq; [lia|].
  assert (M : forall c, ((i + c) mod 8 = (t + c) mod 8)%nat).
  { intros c. replace (i + c)%nat with (t + c + S q * 8)%nat by lia. apply Nat.mod_add. lia. }
  rewrite !M. replace (S q * 8 - 8)%nat with (q * 8)%nat by lia.
  assert (G : forall c, idea_subkey key (q * 8 + c mod 8) = Nat.iter q (fun k => rotl 128 k 25) (be_val key) / 2 ^ (16 * N.of_nat (7 - c mod 8)) mod 2 ^ 16).
  { intros c. pose proof (Nat.mod_upper_bound c 8 ltac:(lia)) as Uc. unfold idea_subkey. cbv zeta.
    replace ((q * 8 + c mod 8) / 8)%nat with q by (apply Nat.div_unique with (c mod 8)%nat; lia).
    replace ((q * 8 + c mod 8) mod 8)%nat with (c mod 8)%nat by (apply Nat.mod_unique with q; lia). reflexivity. }
  rewrite !G. rewrite <- (word128_rot _ t (iter_rot_inw _ q HK) U).
  unfold idea_subkey. cbv zeta. rewrite Eq. fold t. reflexivity.
Qed.

Lemma key16b_words key n : bytes_ok key -> (length key <= 2 * n)%nat -> key16b key n = be_words 2 n (zero_pad (2 * n) key).
Proof. intros B L. rewrite key16b_loads by assumption. apply loads_be; [exact load16b_val|exact B|exact L]. Qed.

Lemma idea_keys key n : bytes_ok key -> (length key <= 16)%nat -> (8 <= n)%nat ->
  let ek := pfor (n - 8) 8 idea_ext (key16b key 8) in
  length ek = n /\ forall i, (i < n)%nat -> nth i ek 0 = idea_subkey (zero_pad 16 key) i.
Proof.
  intros B L Hn. cbv zeta. rewrite (key16b_words key 8) by (auto; lia). change (2 * 8)%nat with 16%nat.
  assert (Bz : bytes_ok (zero_pad 16 key)).
  { unfold zero_pad. apply Forall_app. split; [exact B|]. apply Forall_forall. intros x Hx. apply repeat_spec in Hx. subst x. reflexivity. }
  assert (Lz : length (zero_pad 16 key) = 16%nat) by (apply length_zero_pad; exact L).
  set (z := zero_pad 16 key) in *. clearbody z.
  assert (HK : inw 128 (be_val z)) by (apply (be_val_inw 16); [exact Bz|lia|reflexivity]).
  pose proof (pfor_inv (fun j k => length k = j /\ forall i, (i < j)%nat -> nth i k 0 = idea_subkey z i) (n - 8) 8 idea_ext (be_words 2 8 z)) as G.
  replace (8 + (n - 8))%nat with n in G by lia. apply G; clear G.
  - intros j k Hj [Lk Hk]. unfold idea_ext. rewrite app_length. cbn [length]. split; [lia|].
    intros i Hi. assert (C : (i < j)%nat \/ i = j) by lia. destruct C as [C| ->].
    + rewrite app_nth1 by lia. now apply Hk.
    + rewrite app_nth2 by lia. rewrite Lk, Nat.sub_diag. cbn [nth].
      pose proof (Nat.div_mod j 8 ltac:(lia)) as D. pose proof (Nat.mod_upper_bound j 8 ltac:(lia)) as U.
      pose proof (Nat.mod_upper_bound (j + 1) 8 ltac:(lia)) as U1. pose proof (Nat.mod_upper_bound (j + 2) 8 ltac:(lia)) as U2.
      rewrite !Hk by lia. symmetry. apply subkey_next; [exact HK|lia].
  - split; [apply length_be_words|]. intros i Hi. rewrite nth_be_words by exact Hi.
    unfold idea_subkey. cbv zeta. rewrite Nat.div_small, Nat.mod_small by exact Hi. cbn [Nat.iter nat_rect]. symmetry. now apply be_val_word.
Qed.

Lemma idea_subkey_inw key i : inw 16 (idea_subkey key i).
Proof. unfold idea_subkey. cbv zeta. apply N.mod_lt. discriminate. Qed.

Lemma idea_body_round k i x : (forall j, inw 16 (k j)) -> @w4 16 x ->
  idea_body (k (6 * i + 0)%nat) (k (6 * i + 1)%nat) (k (6 * i + 2)%nat) (k (6 * i + 3)%nat) (k (6 * i + 4)%nat) (k (6 * i + 5)%nat) x = idea_round k x i /\
  @w4 16 (idea_round k x i).
Proof.
  intros Hk Hx. destruct x as [[[x0 x1] x2] x3]. destruct Hx as (H0 & H1 & H2 & H3).
  unfold idea_body, idea_round, add16. rewrite <- !plus_w_wadd.
  assert (T : forall a b, inw 16 a -> inw 16 b -> inw 16 (idea_times a b)) by (intros a b Ha Hb; rewrite <- idea_mul_times by assumption; apply idea_mul_inw).
  pose proof (Hk (6 * i + 0)%nat) as K0. pose proof (Hk (6 * i + 1)%nat) as K1. pose proof (Hk (6 * i + 2)%nat) as K2.
  pose proof (Hk (6 * i + 3)%nat) as K3. pose proof (Hk (6 * i + 4)%nat) as K4. pose proof (Hk (6 * i + 5)%nat) as K5.
  generalize dependent (k (6 * i + 0)%nat). generalize dependent (k (6 * i + 1)%nat). generalize dependent (k (6 * i + 2)%nat).
  generalize dependent (k (6 * i + 3)%nat). generalize dependent (k (6 * i + 4)%nat). generalize dependent (k (6 * i + 5)%nat).
  intros k5 K5 k4 K4 k3 K3 k2 K2 k1 K1 k0 K0.
  rewrite (idea_mul_times x0 k0), (idea_mul_times x3 k3) by assumption.
  pose proof (T x0 k0 H0 K0) as A. pose proof (T x3 k3 H3 K3) as D.
  generalize dependent (idea_times x0 k0). generalize dependent (idea_times x3 k3). intros d D a A.
  assert (Bb : inw 16 (wadd 16 x1 k1)) by wb. assert (Cc : inw 16 (wadd 16 x2 k2)) by wb.
  generalize dependent (wadd 16 x1 k1). generalize dependent (wadd 16 x2 k2). intros c C b B.
  rewrite (idea_mul_times (N.lxor a c) k4) by (assumption || wb).
  assert (G : inw 16 (idea_times (N.lxor a c) k4)) by (apply T; [wb|assumption]).
  generalize dependent (idea_times (N.lxor a c) k4). intros g G.
  rewrite (wadd_comm 16 g (N.lxor b d)).
  rewrite idea_mul_times by (assumption || wb).
  assert (Hh : inw 16 (idea_times (wadd 16 (N.lxor b d) g) k5)) by (apply T; [wb|assumption]).
  generalize dependent (idea_times (wadd 16 (N.lxor b d) g) k5). intros h Hh.
  rewrite (N.lxor_comm (wadd 16 g h) b). split; [reflexivity|]. repeat split; wb.
Qed.

Lemma ld4_be16 pt : blk 8 pt -> ld4 (k := 2) (ld := load16b) pt =
  (word (be_words 2 4 pt) 0, word (be_words 2 4 pt) 1, word (be_words 2 4 pt) 2, word (be_words 2 4 pt) 3).
Proof.
  intros [L B]. unfold ld4, word. rewrite <- (nth_load16b 4 pt 0), <- (nth_load16b 4 pt 1), <- (nth_load16b 4 pt 2), <- (nth_load16b 4 pt 3) by (auto; lia). reflexivity.
Qed.
Lemma st4_be16 a b c d : st4 (st := store16b) (a, b, c, d) = be_string 2 [a; b; c; d].
Proof. unfold st4, be_string. cbn [fst snd flat_map]. now rewrite !store16b_bytes, app_nil_r. Qed.

Lemma idea_published : is_cipher idea_desc (up_to 16) idea_cipher.
Proof.
  apply (is_cipher_default _ _ _ idea_default); [intros key H; exact H|].
  intros key s Hb Hk Es pt Hp. cbn [idea_desc bc_create bc_enc bc_bs] in *. unfold idea_create in Es. apply assert_inv in Es. destruct Es as [_ Es].
  apply fits_inv in Es. destruct Es as [_ Es]. apply Ok_inj in Es. subst s.
  unfold idea_encrypt, idea_setup. cbn [idea_ek idea_r]. change (idea_rounds 0) with 8. change (N.to_nat 8) with 8%nat. change (6 * 8 + 4)%nat with 52%nat.
  destruct (idea_keys key 52) as [LE E]; [exact Hb|apply Hk|lia|].
  set (ek := pfor (52 - 8) 8 idea_ext (key16b key 8)) in *. clearbody ek.
  unfold idea_crypt, idea_cipher. change (N.to_nat 8) with 8%nat. rewrite ld4_be16 by exact Hp.
  pose proof (idea_subkey_inw (zero_pad 16 key)) as Hi. set (k := idea_subkey (zero_pad 16 key)) in *. clearbody k. cbv zeta.
  match goal with |- context [mfor ?n 0 ?f ?x] => match goal with |- context [fold_left ?g _ ?v] =>
    destruct (mfor_fold (fun _ y u => y = u /\ @w4 16 u) n 0%nat f g x v) as (z & Ez & Hz & Wz) end end.
  - intros t y u Ht [-> Hu]. rewrite !(get_ok ek _ 0) by lia. cbn [bind]. eexists. split; [reflexivity|].
    rewrite !E by lia. replace (t * 6)%nat with (6 * t)%nat by lia. rewrite <- (Nat.add_0_r (6 * t)) at 1. now apply idea_body_round.
  - split; [reflexivity|]. repeat split; apply (be_words_word 2); (apply Hp || reflexivity).
  - rewrite Ez. cbn [bind]. rewrite Hz in *. clear Ez Hz. change (fold_left (idea_round k) (seq 0 8)) with (fold_left (idea_round k) (seq 0 8)) in *.
    match goal with |- context [fold_left ?g ?l ?v] => destruct (fold_left g l v) as [[[x0 x1] x2] x3] end.
    destruct Wz as (H0 & H1 & H2 & H3). rewrite !(get_ok ek _ 0) by lia. cbn [bind]. rewrite !E by lia.
    change (8 * 6)%nat with 48%nat. change (48 + 1)%nat with 49%nat. change (48 + 2)%nat with 50%nat. change (48 + 3)%nat with 51%nat.
    rewrite st4_be16. unfold add16. rewrite <- !plus_w_wadd. rewrite !idea_mul_times by (assumption || apply Hi). reflexivity.
Qed.
