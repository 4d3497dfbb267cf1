(** Threefish is the published cipher, with any tweak. *)
From Coq Require Import NArith PArith Arith List Bool Lia.
From Verif Require Import Lib.Word Lib.Res Lib.Bytes Lib.Bij Lib.XorSolve Lib.Lists Lib.WordSpec Lib.WordsP Lib.BlockLemmas Spec.Words Spec.Block Spec.Cipher Spec.Arx
  Model.LoadStore Model.BlockApi Model.Threefish Model.Ciphers
  Proof.LoadStoreP Proof.ThreefishP Proof.CiphersP Proof.Sha1P Proof.RekeyP Proof.ArxP Proof.SpeckPubP.
Import ListNotations.
Local Open Scope N_scope.

Lemma upd_mid (l : list N) a b c : upd (l ++ b :: c) (length l) a = l ++ a :: c.
Proof. induction l as [|h t IH]; [reflexivity|]. cbn [length app upd]. now rewrite IH. Qed.

Section Tf.
  Variables (p : tf_par) (perm : list nat) (rots : list (list N)).
  Let n := tf_n p.
  (** the round of the paper with the operations of the model *)
  Definition m_round (d : nat) (v : list N) : list N :=
    let f := flat_map (fun j => let y0 := wadd 64 (nth (2 * j) v 0) (nth (2 * j + 1) v 0) in
      [y0; N.lxor (rol 64 (nth (2 * j + 1) v 0) (nth j (nth d rots []) 0)) y0]) (seq 0 (n / 2)) in
    map (fun i => nth (nth i perm 0%nat) f 0) (seq 0 n).
  Hypothesis Rok : forallb (forallb (fun r => r <=? 64)) rots = true.
  Lemma rots_le d j : nth j (nth d rots []) 0 <= 64.
  Proof.
    rewrite forallb_forall in Rok. destruct (Nat.lt_ge_cases d (length rots)) as [Hd|Hd]; [|rewrite (nth_overflow _ _ Hd); destruct j; cbn; lia].
    specialize (Rok _ (nth_In rots [] Hd)). rewrite forallb_forall in Rok.
    destruct (Nat.lt_ge_cases j (length (nth d rots []))) as [Hj|Hj]; [|rewrite (nth_overflow _ _ Hj); lia].
    apply N.leb_le, Rok, nth_In, Hj.
  Qed.
  Lemma m_round_eq d v : words_ok 64 v -> tf_round n perm rots d v = m_round (d mod 8) v.
  Proof.
    intros W. unfold tf_round, m_round, word.
    match goal with |- map (fun i => nth _ ?a _) _ = map (fun j => nth _ ?b _) _ => assert (E : a = b) end.
    - apply flat_map_ext. intros j. unfold tf_mix_pair. rewrite <- plus_w_wadd. rewrite rol_rotl; [reflexivity|wb|apply rots_le].
    - now rewrite E.
  Qed.
  Lemma m_round_regs d v : words_ok 64 v -> regs 64 n (m_round d v).
  Proof.
    intros W. unfold m_round. split; [now rewrite map_length, seq_length|].
    apply Forall_forall. intros x Hx. apply in_map_iff in Hx. destruct Hx as (i & <- & _). apply words_nth.
    apply Forall_flat_map, Forall_forall. intros j _. repeat constructor; wb.
  Qed.
  Hypothesis E1 : forall x, length x = n -> m_round 3 (m_round 2 (m_round 1 (m_round 0 x))) = prun tf_mix (tf_e1 p) x.
  Hypothesis E2 : forall x, length x = n -> m_round 7 (m_round 6 (m_round 5 (m_round 4 x))) = prun tf_mix (tf_e2 p) x.

  Lemma prun_map (f : nat -> N -> N) (x : list N) : forall m, (m <= length x)%nat ->
    prun (fun i y => upd y i (f i (nth i y 0))) (seq 0 m) x = map (fun i => f i (nth i x 0)) (seq 0 m) ++ skipn m x.
  Proof.
    induction m as [|m IH]; intros H; [reflexivity|].
    rewrite seq_S, prun_app, IH by lia. cbn [prun fold_left Nat.add]. rewrite map_app. cbn [map].
    assert (L : length (map (fun i => f i (nth i x 0)) (seq 0 m)) = m) by now rewrite map_length, seq_length.
    assert (Sk : skipn m x = nth m x 0 :: skipn (S m) x).
    { clear -H. revert x H. induction m as [|m IH]; intros [|a x] H; cbn [length] in H; try lia; [reflexivity|]. cbn [skipn nth]. apply IH. lia. }
    rewrite app_nth2 by lia. rewrite L, Nat.sub_diag, Sk. cbn [nth]. rewrite <- app_assoc. cbn [app].
    set (l := map _ (seq 0 m)) in *. replace (upd (l ++ nth m x 0 :: skipn (S m) x) m) with (upd (l ++ nth m x 0 :: skipn (S m) x) (length l)) by now rewrite L.
    apply upd_mid.
  Qed.

  Variables (s : threefish) (K T : list N).
  Hypothesis HK : tf_k s = K.
  Hypothesis HT : tf_t s = T.
  Hypothesis WK : words_ok 64 K.
  Lemma tf_sub_key r i : tf_sub p s r i = tf_subkey n K T r i.
  Proof.
    unfold tf_sub, tf_subkey, word. rewrite HK, HT. fold n. rewrite <- !plus_w_wadd. reflexivity.
  Qed.
  Lemma tf_add_eq r x : length x = n -> tf_add p s r x = tf_add_key n K T r x.
  Proof.
    intros L. unfold tf_add, tf_add_key. fold n.
    rewrite (prun_map (fun i u => wadd 64 u (tf_sub p s r i)) x n) by lia. rewrite skipn_all2, app_nil_r by lia.
    apply map_ext. intros i. unfold word. now rewrite tf_sub_key, <- plus_w_wadd.
  Qed.
  Lemma tf_add_regs r x : regs 64 n (tf_add_key n K T r x).
  Proof.
    unfold tf_add_key. split; [now rewrite map_length, seq_length|]. apply Forall_forall. intros y Hy. apply in_map_iff in Hy.
    destruct Hy as (i & <- & _). rewrite <- plus_w_wadd. wb.
  Qed.

  Lemma eight v j : regs 64 n v ->
    tf_enc_body p s (2 * j + 1) (tf_add_key n K T (2 * j) v) = tf_add_key n K T (2 * S j) (fold_left (tf_step n perm rots K T) (seq (8 * j) 8) v) /\
    regs 64 n (fold_left (tf_step n perm rots K T) (seq (8 * j) 8) v).
  Proof.
    intros Hv. cbn [seq fold_left]. unfold tf_step.
    assert (M : forall c, (c < 8)%nat -> ((c + 8 * j) mod 8 = c)%nat).
    { intros c Hc. rewrite (Nat.mul_comm 8 j), Nat.mod_add by lia. apply Nat.mod_small. exact Hc. }
    assert (Q : forall c, (c < 8)%nat -> ((c + 8 * j) mod 4 = c mod 4)%nat).
    { intros c Hc. replace (8 * j)%nat with (2 * j * 4)%nat by lia. apply Nat.mod_add. lia. }
    assert (D0 : ((8 * j) / 4 = 2 * j)%nat) by (replace (8 * j)%nat with (2 * j * 4)%nat by lia; apply Nat.div_mul; lia).
    assert (D4 : ((4 + 8 * j) / 4 = 2 * j + 1)%nat) by (replace (4 + 8 * j)%nat with ((2 * j + 1) * 4)%nat by lia; apply Nat.div_mul; lia).
    pose proof (Q 0%nat ltac:(lia)) as Q0. pose proof (Q 1%nat ltac:(lia)) as Q1. pose proof (Q 2%nat ltac:(lia)) as Q2. pose proof (Q 3%nat ltac:(lia)) as Q3.
    pose proof (Q 4%nat ltac:(lia)) as Q4. pose proof (Q 5%nat ltac:(lia)) as Q5. pose proof (Q 6%nat ltac:(lia)) as Q6. pose proof (Q 7%nat ltac:(lia)) as Q7.
    cbn [Nat.add] in *. rewrite Q0, Q1, Q2, Q3, Q4, Q5, Q6, Q7.
    change (Nat.eqb (0 mod 4) 0) with true. change (Nat.eqb (1 mod 4) 0) with false. change (Nat.eqb (2 mod 4) 0) with false. change (Nat.eqb (3 mod 4) 0) with false.
    change (Nat.eqb (4 mod 4) 0) with true. change (Nat.eqb (5 mod 4) 0) with false. change (Nat.eqb (6 mod 4) 0) with false. change (Nat.eqb (7 mod 4) 0) with false.
    cbv iota. rewrite D0, D4.
    destruct (tf_add_regs (2 * j) v) as [L0 W0]. set (x := tf_add_key n K T (2 * j) v) in *.
    rewrite (m_round_eq (8 * j) x W0). replace ((8 * j) mod 8)%nat with 0%nat by (symmetry; apply (M 0%nat); lia).
    pose proof (m_round_regs 0 x W0) as [La Wa].
    rewrite (m_round_eq _ _ Wa). replace (S (8 * j) mod 8)%nat with 1%nat by (symmetry; apply (M 1%nat); lia).
    pose proof (m_round_regs 1 _ Wa) as [Lb Wb].
    rewrite (m_round_eq _ _ Wb). replace (S (S (8 * j)) mod 8)%nat with 2%nat by (symmetry; apply (M 2%nat); lia).
    pose proof (m_round_regs 2 _ Wb) as [Lc Wc].
    rewrite (m_round_eq _ _ Wc). replace (S (S (S (8 * j))) mod 8)%nat with 3%nat by (symmetry; apply (M 3%nat); lia).
    rewrite E1 by exact L0.
    pose proof (m_round_regs 3 _ Wc) as [Ld Wd]. rewrite E1 in Ld by exact L0.
    unfold tf_enc_body. rewrite (tf_add_eq (2 * j + 1) (prun tf_mix (tf_e1 p) x)) by exact Ld.
    destruct (tf_add_regs (2 * j + 1) (prun tf_mix (tf_e1 p) x)) as [L1 W1]. set (y := tf_add_key n K T (2 * j + 1) (prun tf_mix (tf_e1 p) x)) in *.
    clear La Wa Lb Wb Lc Wc Ld Wd.
    rewrite (m_round_eq _ y W1). replace (S (S (S (S (8 * j)))) mod 8)%nat with 4%nat by (symmetry; apply (M 4%nat); lia).
    pose proof (m_round_regs 4 y W1) as [La Wa].
    rewrite (m_round_eq _ _ Wa). replace (S (S (S (S (S (8 * j))))) mod 8)%nat with 5%nat by (symmetry; apply (M 5%nat); lia).
    pose proof (m_round_regs 5 _ Wa) as [Lb Wb].
    rewrite (m_round_eq _ _ Wb). replace (S (S (S (S (S (S (8 * j)))))) mod 8)%nat with 6%nat by (symmetry; apply (M 6%nat); lia).
    pose proof (m_round_regs 6 _ Wb) as [Lc Wc].
    rewrite (m_round_eq _ _ Wc). replace (S (S (S (S (S (S (S (8 * j))))))) mod 8)%nat with 7%nat by (symmetry; apply (M 7%nat); lia).
    pose proof (m_round_regs 7 _ Wc) as Rd. rewrite E2 in Rd |- * by exact L1.
    split; [|exact Rd]. rewrite tf_add_eq by apply Rd. now replace (S (2 * j + 1)) with (2 * S j)%nat by lia.
  Qed.

  Lemma eights m : forall i v, regs 64 n v ->
    pfor m i (fun j => tf_enc_body p s (2 * j + 1)) (tf_add_key n K T (2 * i) v) =
    tf_add_key n K T (2 * (i + m)) (fold_left (tf_step n perm rots K T) (seq (8 * i) (8 * m)) v).
  Proof.
    induction m as [|m IH]; intros i v Hv.
    - rewrite Nat.add_0_r. reflexivity.
    - cbn [pfor]. destruct (eight v i Hv) as [Ee Rv]. rewrite Ee. rewrite IH by exact Rv.
      replace (8 * S m)%nat with (8 + 8 * m)%nat by lia. rewrite seq_app, fold_left_app.
      replace (8 * i + 8)%nat with (8 * S i)%nat by lia. now replace (S i + m)%nat with (i + S m)%nat by lia.
  Qed.

  Lemma tf_enc_pub m pt : N.to_nat (wshr (tf_rounds s) 2) = (2 * m)%nat -> blk (8 * n) pt ->
    tf_encrypt p s pt = Ok (le_string 8 (tf_add_key n K T (2 * m) (fold_left (tf_step n perm rots K T) (seq 0 (8 * m)) (le_words 8 n pt)))).
  Proof.
    intros Hm [L B]. unfold tf_encrypt. rewrite Hm. fold n.
    rewrite loads64l_le by (auto; lia). rewrite zero_pad_full by lia. rewrite stores64l_le. f_equal. f_equal.
    rewrite tf_add_eq by apply length_le_words.
    pose proof (tf_enc_loop_eq p s m 0 (2 * m) (tf_add_key n K T 0 (le_words 8 n pt)) ltac:(lia)) as E.
    cbn [Nat.mul Nat.add] in E. cbn [Nat.mul Nat.add]. rewrite E.
    pose proof (eights m 0 (le_words 8 n pt)) as E'. cbn [Nat.mul Nat.add] in E'. apply E'.
    split; [apply length_le_words|now apply le_words_inw].
  Qed.
End Tf.


(** Rotations and permutations of the paper again, as in [Spec/Arx.v]. *)
Definition rots256 : list (list N) := [[14; 16]; [52; 57]; [23; 40]; [5; 37]; [25; 33]; [46; 12]; [58; 22]; [32; 32]].
Definition rots512 : list (list N) :=
  [[46; 36; 19; 37]; [33; 27; 14; 42]; [17; 49; 36; 39]; [44; 9; 54; 56];
   [39; 30; 34; 24]; [13; 50; 10; 17]; [25; 29; 39; 43]; [8; 35; 56; 22]].
Definition rots1024 : list (list N) :=
  [[24; 13; 8; 47; 8; 17; 22; 37]; [38; 19; 10; 55; 49; 18; 23; 52]; [33; 4; 51; 13; 34; 41; 59; 17]; [5; 20; 48; 41; 47; 28; 16; 25];
   [41; 9; 37; 31; 12; 47; 44; 30]; [16; 34; 56; 51; 4; 53; 42; 41]; [31; 44; 47; 46; 19; 42; 44; 25]; [9; 48; 35; 52; 23; 31; 37; 20]].
Definition perm256 : list nat := [0; 3; 2; 1]%nat.
Definition perm512 : list nat := [2; 1; 4; 7; 6; 5; 0; 3]%nat.
Definition perm1024 : list nat := [0; 9; 2; 13; 6; 11; 4; 15; 10; 7; 12; 3; 14; 5; 8; 1]%nat.
Ltac explode x L := destruct x as [|? x]; [try discriminate L; clear L|try discriminate L; cbn [length] in L; apply Nat.succ_inj in L; explode x L].
Definition rounds4 (p : tf_par) perm rots (d : nat) (ops : list mixop) : Prop :=
  forall x, length x = tf_n p -> let R := m_round p perm rots in R (d + 3)%nat (R (d + 2)%nat (R (d + 1)%nat (R d x))) = prun tf_mix ops x.
Ltac four := intros x L; cbn [tf_n threefish256 threefish512 threefish1024] in L; explode x L; cbv -[wadd rol N.lxor]; reflexivity.
Lemma tf256_e1 : rounds4 threefish256 perm256 rots256 0 (tf_e1 threefish256). Proof. four. Qed.
Lemma tf256_e2 : rounds4 threefish256 perm256 rots256 4 (tf_e2 threefish256). Proof. four. Qed.
Lemma tf512_e1 : rounds4 threefish512 perm512 rots512 0 (tf_e1 threefish512). Proof. four. Qed.
Lemma tf512_e2 : rounds4 threefish512 perm512 rots512 4 (tf_e2 threefish512). Proof. four. Qed.
Lemma tf1024_e1 : rounds4 threefish1024 perm1024 rots1024 0 (tf_e1 threefish1024). Proof. four. Qed.
Lemma tf1024_e2 : rounds4 threefish1024 perm1024 rots1024 4 (tf_e2 threefish1024). Proof. four. Qed.

Lemma fold_lxor_init l a b : fold_left N.lxor l (N.lxor a b) = N.lxor (fold_left N.lxor l a) b.
Proof. revert a. induction l as [|h t IH]; intros a; cbn [fold_left]; [reflexivity|]. rewrite <- IH. f_equal. xor_solve. Qed.
Definition tweaked (s : threefish) (tw : list N) : threefish :=
  {| tf_rounds := tf_rounds s; tf_t := key64l tw 2 ++ [N.lxor (nth 0 (key64l tw 2) 0) (nth 1 (key64l tw 2) 0)]; tf_k := tf_k s |}.
Lemma tf_pub_any p perm rots r m key tw pt :
  forallb (forallb (fun r => r <=? 64)) rots = true -> rounds4 p perm rots 0 (tf_e1 p) -> rounds4 p perm rots 4 (tf_e2 p) ->
  (if r =? 0 then tf_def p else r) = N.of_nat (8 * m) ->
  bytes_ok key -> (length key <= 8 * tf_n p)%nat -> bytes_ok tw -> (length tw <= 16)%nat -> blk (8 * tf_n p) pt ->
  tf_encrypt p (tweaked (tf_setup p r key) tw) pt = Ok (threefish_cipher (tf_n p) perm rots (8 * m) key tw pt).
Proof.
  intros Hr H1 H2 Hd Bk Lk Bt Lt Hp.
  assert (EK : tf_k (tweaked (tf_setup p r key) tw) = le_words 8 (tf_n p) (zero_pad (8 * tf_n p) key) ++
    [fold_left N.lxor (le_words 8 (tf_n p) (zero_pad (8 * tf_n p) key)) 0x1BD11BDAA9FC1A22]).
  { cbn [tweaked tf_k tf_setup]. rewrite key64l_words by assumption. apply f_equal. apply f_equal2; [|reflexivity].
    rewrite <- fold_lxor_init. reflexivity. }
  assert (ET : tf_t (tweaked (tf_setup p r key) tw) = le_words 8 2 (zero_pad 16 tw) ++
    [N.lxor (word (le_words 8 2 (zero_pad 16 tw)) 0) (word (le_words 8 2 (zero_pad 16 tw)) 1)]).
  { cbn [tweaked tf_t]. rewrite (key64l_words tw 2) by (auto; lia). reflexivity. }
  rewrite (tf_enc_pub p perm rots Hr H1 H2 _ _ _ EK ET m pt); [unfold threefish_cipher| |exact Hp].
  - replace (8 * m / 4)%nat with (2 * m)%nat; [reflexivity|]. replace (8 * m)%nat with (2 * m * 4)%nat by lia. symmetry. apply Nat.div_mul. lia.
  - cbn [tweaked tf_rounds tf_setup]. rewrite Hd, wshr_div. change (2 ^ 2) with 4.
    replace (N.of_nat (8 * m)) with (N.of_nat (2 * m) * 4) by lia. rewrite N.div_mul by discriminate. lia.
Qed.

Lemma tf_tweaked s tw : (length tw <= 16)%nat -> tf_tweak s tw = Ok (tweaked s tw).
Proof. intros H. unfold tf_tweak, tf_maxtweak. destruct (Nat.leb_spec (length tw) 16); [reflexivity|lia]. Qed.
Lemma tf_published p perm rots m : tf_good p ->
  forallb (forallb (fun r => r <=? 64)) rots = true -> rounds4 p perm rots 0 (tf_e1 p) -> rounds4 p perm rots 4 (tf_e2 p) ->
  tf_def p = N.of_nat (8 * m) -> m <> 0%nat -> tf_rounds_ok p 0 -> is_tweak_cipher p (threefish_cipher (tf_n p) perm rots (8 * m)).
Proof.
  intros G Hr H1 H2 Hd Hm Ho key tw Hk Bt Lt.
  destruct (tf_perm_tweak p 0 key tw G Hk Ho Lt) as (s & s' & E1 & E2 & P). exists s, s'. split; [exact E1|]. split; [exact E2|].
  assert (Es : s' = tweaked (tf_setup p 0 key) tw).
  { unfold tf_create in E1. apply assert_inv in E1. destruct E1 as [_ E1]. apply Ok_inj in E1. subst s. rewrite tf_tweaked in E2 by exact Lt. now apply Ok_inj in E2. }
  intros pt Hp. destruct Hk as (Hb & Hk1 & Hk2).
  assert (Ee : tf_encrypt p s' pt = Ok (threefish_cipher (tf_n p) perm rots (8 * m) key tw pt)) by (rewrite Es; now apply tf_pub_any).
  split; [exact Ee|]. destruct P as (U & _). destruct (U pt (proj1 Hp) (proj2 Hp)) as (ct & F1 & _ & _ & F2).
  rewrite Ee in F1. apply Ok_inj in F1. now rewrite F1.
Qed.
Lemma threefish256_published : is_tweak_cipher threefish256 threefish256_cipher.
Proof. apply (tf_published threefish256 perm256 rots256 9 threefish256_good); [reflexivity|exact tf256_e1|exact tf256_e2|reflexivity|discriminate|reflexivity]. Qed.
Lemma threefish512_published : is_tweak_cipher threefish512 threefish512_cipher.
Proof. apply (tf_published threefish512 perm512 rots512 9 threefish512_good); [reflexivity|exact tf512_e1|exact tf512_e2|reflexivity|discriminate|reflexivity]. Qed.
Lemma threefish1024_published : is_tweak_cipher threefish1024 threefish1024_cipher.
Proof. apply (tf_published threefish1024 perm1024 rots1024 10 threefish1024_good); [reflexivity|exact tf1024_e1|exact tf1024_e2|reflexivity|discriminate|reflexivity]. Qed.
(** without a tweak *)
Lemma tweaked_none p r key : tf_setup p r key = tweaked (tf_setup p r key) [].
Proof. reflexivity. Qed.
Lemma tf_published0 p E : tf_good p -> tf_rounds_ok p 0 -> (0 < tf_n p)%nat -> is_tweak_cipher p E -> is_cipher (threefish_desc p) (up_to (8 * tf_n p)) (fun key => E key []).
Proof.
  intros G Ho Hn H key Hb Hk. destruct (H key [] (conj Hb Hk) ltac:(constructor) ltac:(cbn; lia)) as (s & s' & E1 & E2 & P).
  exists s. split; [exact E1|]. rewrite tf_tweaked in E2 by (cbn; lia). apply Ok_inj in E2.
  unfold tf_create in E1. apply assert_inv in E1. destruct E1 as [_ E1]. apply Ok_inj in E1. subst s. rewrite <- tweaked_none in E2. subst s'. exact P.
Qed.
