(** LEA and GOST are the published ciphers. *)
From Coq Require Import NArith PArith Arith List Bool Lia.
From Verif Require Import Lib.Word Lib.Res Lib.Bytes Lib.Bij Lib.XorSolve Lib.Lists Lib.WordSpec Lib.WordsP Lib.BlockLemmas Spec.Words Spec.Block Spec.Cipher Spec.Arx
  Model.LoadStore Model.BlockApi Model.Lea Model.Gost Model.Ciphers
  Proof.LoadStoreP Proof.LeaP Proof.GostP Proof.CiphersP Proof.Sha1P Proof.RekeyP Proof.ArxP Proof.SpeckPubP.
Import ListNotations.
Local Open Scope N_scope.

Lemma fold_left_ext_in {A B} (f g : A -> B -> A) l x : (forall y i, In i l -> f y i = g y i) -> fold_left f l x = fold_left g l x.
Proof.
  revert x. induction l as [|i l IH]; intros x H; [reflexivity|]. cbn [fold_left]. rewrite H by now left. apply IH. intros y j Hj. apply H. now right.
Qed.

(** * LEA: all round keys in one list *)
Section Run.
  Variable next : list N -> nat -> list N * list N.
  Hypothesis next6 : forall T i, length (snd (next T i)) = 6%nat.
  Definition run_keys (s : list N * list N) (i : nat) : list N * list N := let '(T, rk) := next (fst s) i in (T, snd s ++ rk).
  Definition keyed (K : list N) (x : list N) (i : nat) : list N := lea_round (map (fun c => word K (6 * i + c)) (seq 0 6)) x.
  Lemma run_split T x n :
    let a := fold_left (fun s i => let '(T, rk) := next (fst s) i in (T, lea_round rk (snd s))) (seq 0 n) (T, x) in
    let b := fold_left run_keys (seq 0 n) (T, []) in
    fst a = fst b /\ length (snd b) = (6 * n)%nat /\ snd a = fold_left (keyed (snd b)) (seq 0 n) x.
  Proof.
    cbv zeta. induction n as [|n (I1 & I2 & I3)]; [repeat split|].
    rewrite seq_S, !fold_left_app. cbn [Nat.add fold_left].
    set (a := fold_left _ (seq 0 n) (T, x)) in *. set (b := fold_left run_keys (seq 0 n) (T, [])) in *.
    change (run_keys b n) with (let '(T, rk) := next (fst b) n in (T, snd b ++ rk)). rewrite I1. pose proof (next6 (fst b) n) as L6. destruct (next (fst b) n) as [T' rk]. cbn [fst snd] in *.
    split; [reflexivity|]. split; [rewrite app_length; lia|].
    rewrite I3. rewrite (fold_left_ext_in (keyed (snd b)) (keyed (snd b ++ rk))).
    - match goal with |- _ = keyed ?K ?y n => change (keyed K y n) with (lea_round (map (fun c => word K (6 * n + c)) (seq 0 6)) y) end.
      apply f_equal2; [|reflexivity]. apply nth_ext with (d := 0) (d' := 0); [now rewrite map_length, seq_length|].
      intros i Hi. rewrite L6 in Hi. rewrite nth_map_seq by lia. unfold word. rewrite app_nth2 by lia. f_equal. lia.
    - intros y i Hi. apply in_seq in Hi. unfold keyed. f_equal. apply map_ext_in. intros c Hc. apply in_seq in Hc. unfold word. rewrite app_nth1 by lia. reflexivity.
  Qed.
  Lemma lea_run_keyed T x n : lea_run next T x n = fold_left (keyed (snd (fold_left run_keys (seq 0 n) (T, [])))) (seq 0 n) x.
  Proof. unfold lea_run. apply (run_split T x n). Qed.
End Run.

(** one round with the operations of the model *)
Definition m_lea (K : list N) (i : nat) (x : list N) : list N :=
  [rol 32 (wadd 32 (N.lxor (nth 0 x 0) (nth i K 0)) (N.lxor (nth 1 x 0) (nth (i + 1) K 0))) 9;
   ror 32 (wadd 32 (N.lxor (nth 1 x 0) (nth (i + 2) K 0)) (N.lxor (nth 2 x 0) (nth (i + 3) K 0))) 5;
   ror 32 (wadd 32 (N.lxor (nth 2 x 0) (nth (i + 4) K 0)) (N.lxor (nth 3 x 0) (nth (i + 5) K 0))) 3;
   nth 0 x 0].
Lemma keyed_m K x i : keyed K x i = m_lea K (6 * i) x.
Proof.
  unfold keyed, lea_round, m_lea. cbn [map seq word nth]. unfold word. rewrite !add32_wadd, Nat.add_0_r.
  rewrite <- rol_rotl by (wb || lia). rewrite <- !ror_rotr by (wb || lia). reflexivity.
Qed.
(** the same with the keys as a function *)
Definition f_lea (k : nat -> N) (i : nat) (x : list N) : list N :=
  [rol 32 (wadd 32 (N.lxor (nth 0 x 0) (k i)) (N.lxor (nth 1 x 0) (k (i + 1)%nat))) 9;
   ror 32 (wadd 32 (N.lxor (nth 1 x 0) (k (i + 2)%nat)) (N.lxor (nth 2 x 0) (k (i + 3)%nat))) 5;
   ror 32 (wadd 32 (N.lxor (nth 2 x 0) (k (i + 4)%nat)) (N.lxor (nth 3 x 0) (k (i + 5)%nat))) 3;
   nth 0 x 0].
Definition f_pop (k : nat -> N) (o : leaop) (x : list N) : list N :=
  let '(d, s, q, p) := o in
  upd x d (lea_rot q (wadd 32 (N.lxor (nth s x 0) (k p)) (N.lxor (nth d x 0) (k (p + 1)%nat)))).
Lemma f_lea_m K o i x : m_lea K (o + i) x = f_lea (fun c => nth (o + c) K 0) i x.
Proof. unfold m_lea, f_lea. now rewrite !Nat.add_assoc. Qed.
Lemma f_pop_m K o l x : prun (lea_pop K o) l x = prun (f_pop (fun c => nth (o + c) K 0)) l x.
Proof.
  unfold prun. apply fold_left_ext_in. intros y [[[d q] c] e] _. unfold lea_pop, f_pop. now rewrite Nat.add_assoc.
Qed.
Lemma f_four k x : length x = 4%nat -> prun (f_pop k) lea_enc_ops x = f_lea k 18 (f_lea k 12 (f_lea k 6 (f_lea k 0 x))).
Proof.
  intros L. do 4 (destruct x as [|? x]; [discriminate L|]). destruct x; [|discriminate L]. cbv -[wadd rol ror N.lxor]. reflexivity.
Qed.
Lemma lea_four K j x : length x = 4%nat ->
  prun (lea_pop K (24 * j)) lea_enc_ops x = m_lea K (6 * (4 * j + 3)) (m_lea K (6 * (4 * j + 2)) (m_lea K (6 * (4 * j + 1)) (m_lea K (6 * (4 * j)) x))).
Proof.
  intros L. rewrite f_pop_m, f_four by exact L.
  replace (6 * (4 * j))%nat with (24 * j + 0)%nat by lia. replace (6 * (4 * j + 1))%nat with (24 * j + 6)%nat by lia.
  replace (6 * (4 * j + 2))%nat with (24 * j + 12)%nat by lia. replace (6 * (4 * j + 3))%nat with (24 * j + 18)%nat by lia.
  now rewrite !f_lea_m.
Qed.
Lemma fold_fours {A} (g : A -> nat -> A) m : forall i x,
  fold_left g (seq (4 * i) (4 * m)) x = fold_left (fun y j => g (g (g (g y (4 * j)) (4 * j + 1)) (4 * j + 2)) (4 * j + 3))%nat (seq i m) x.
Proof.
  induction m as [|m IH]; intros i x; [reflexivity|].
  replace (4 * S m)%nat with (S (S (S (S (4 * m))))) by lia. cbn [seq fold_left].
  replace (4 * i + 1)%nat with (S (4 * i)) by lia. replace (4 * i + 2)%nat with (S (S (4 * i))) by lia. replace (4 * i + 3)%nat with (S (S (S (4 * i)))) by lia.
  rewrite <- IH. now replace (4 * S i)%nat with (S (S (S (S (4 * i))))) by lia.
Qed.
Lemma length_m_lea K i x : length (m_lea K i x) = 4%nat. Proof. reflexivity. Qed.
Lemma lea_enc_keyed s m pt : N.to_nat (lea_r s) = (4 * m)%nat -> length (lea_k s) = (24 * m)%nat -> blk 16 pt ->
  lea_encrypt s pt = Ok (le_string 4 (fold_left (keyed (lea_k s)) (seq 0 (4 * m)) (le_words 4 4 pt))).
Proof.
  intros Hr Hl [Lp Bp]. unfold lea_encrypt. rewrite Hr.
  replace ((4 * m + 3) / 4)%nat with m by (apply Nat.div_unique with 3%nat; lia).
  rewrite loads32l_le by (auto; lia). rewrite zero_pad_full by lia.
  pose proof (fold_fours (keyed (lea_k s)) m 0 (le_words 4 4 pt)) as F. change (4 * 0)%nat with 0%nat in F. rewrite F.
  match goal with |- context [mfor ?n 0 ?f ?x] => match goal with |- context [fold_left ?g _ ?v] =>
    destruct (mfor_fold (fun _ y u => y = u /\ length u = 4%nat) n 0%nat f g x v) as (z & Ez & Hz & _) end end.
  - intros t y u Ht (-> & Hu). exists (prun (lea_pop (lea_k s) (24 * t)) lea_enc_ops u). split.
    + apply mrun_pure. intros o y Ho.
      assert (A : forallb lea_op_ok lea_enc_ops = true) by reflexivity. rewrite forallb_forall in A. specialize (A o Ho).
      destruct o as [[[d q] c] e]. unfold lea_op_ok in A. rewrite !andb_true_iff in A. destruct A as [_ A]. apply Nat.ltb_lt in A.
      unfold lea_op, lea_pop. now gets.
    + rewrite lea_four by exact Hu. rewrite !keyed_m. split; reflexivity.
  - split; [reflexivity|apply length_le_words].
  - rewrite Ez. cbn [bind]. now rewrite Hz, stores32l_le.
Qed.

(** the key schedules *)
Lemma lea_turn_eq T i c d ix : nth c [1; 3; 6; 11; 13; 17] 0 <= 32 -> inw 32 d ->
  upd T ix (rol 32 (wadd 32 (nth ix T 0) (rolv 32 d (N.land (N.of_nat (i + c)) 31))) (nth c lea_rots 0)) = lea_turn T i c d ix.
Proof.
  intros H Hd. unfold lea_turn. change lea_rots with [1; 3; 6; 11; 13; 17]. rewrite add32_wadd. rewrite rol_rotl by (wb || exact H).
  rewrite rolv_rot32 by exact Hd. change 31 with (N.ones 5). rewrite N.land_ones. change (2 ^ 5) with 32. unfold rot32. rewrite N.mod_mod by discriminate.
  reflexivity.
Qed.
Lemma lea_C_inw j : inw 32 (nth j lea_C 0).
Proof. do 8 (destruct j as [|j]; [reflexivity|]). destruct j; reflexivity. Qed.
Lemma lea_rots_le c : nth c [1; 3; 6; 11; 13; 17] 0 <= 32.
Proof. do 6 (destruct c as [|c]; [discriminate|]). destruct c; discriminate. Qed.
Lemma lea_sched_keys n m ix out (next : list N -> nat -> list N * list N) r T :
  (forall T i, next T i = (let T := fold_left (fun T j => lea_turn T i j (word lea_delta (i mod m)) (ix i j)) (seq 0 n) T in (T, map (fun c => word T (ix i c)) out))) ->
  pfor r 0 (lea_sched_step n m ix out) (T, []) = fold_left (run_keys next) (seq 0 r) (T, []).
Proof.
  intros Hn. apply (pfor_fold (fun _ y u => y = u)); [|reflexivity].
  intros t y u _ ->. destruct u as [T' k]. unfold lea_sched_step, run_keys. cbn [fst snd]. rewrite Hn. cbv zeta.
  assert (E : forall l T, prun (fun c t0 => upd t0 (ix t c) (rol 32 (wadd 32 (nth (ix t c) t0 0) (rolv 32 (nth (t mod m) lea_C 0) (N.land (N.of_nat (t + c)) 31))) (nth c lea_rots 0))) l T =
    fold_left (fun T j => lea_turn T t j (word lea_delta (t mod m)) (ix t j)) l T).
  { induction l as [|c l IH]; intros T0; [reflexivity|]. cbn [prun fold_left].
    rewrite lea_turn_eq by (apply lea_rots_le || apply lea_C_inw). apply IH. }
  rewrite E. reflexivity.
Qed.

Lemma lea_published : is_cipher lea_desc (sized [16; 24; 32]%nat) lea_cipher.
Proof.
  apply (is_cipher_default _ _ _ lea_default); [intros key Hk; change (bc_maxkey lea_desc) with 32%nat; size_cases Hk; rewrite <- Hk; lia|].
  intros key s Hb Hk Es pt Hp. cbn [lea_desc bc_create bc_enc bc_bs] in *. unfold lea_create in Es. apply assert_inv in Es. destruct Es as [_ Es].
  apply fits_inv in Es. destruct Es as [_ Es]. apply Ok_inj in Es. subst s.
  destruct (lea_sched_ok (N.to_nat (lea_rounds 0 key)) key Hb) as [Lk _].
  unfold lea_cipher, lea_setup. unfold lea_rounds in *. change (0 =? 0) with true in *. cbv iota in *. 
  size_cases Hk; rewrite <- Hk; cbn [Nat.ltb Nat.leb Nat.div Nat.divmod fst].
  - rewrite <- Hk in Lk. cbn [Nat.ltb Nat.leb] in Lk. rewrite (lea_enc_keyed {| lea_r := 24; lea_k := lea_sched (N.to_nat 24) key |} 6 pt eq_refl Lk Hp). cbn [lea_k].
    rewrite lea_run_keyed by reflexivity. unfold lea_sched. rewrite <- Hk. cbn [Nat.ltb Nat.leb].
    rewrite (key32l_words key 4) by (auto; lia). rewrite zero_pad_full by lia.
    rewrite (lea_sched_keys 4 4 (fun _ c => c) [0; 1; 2; 1; 3; 1]%nat lea_key128) by reflexivity. reflexivity.
  - rewrite <- Hk in Lk. cbn [Nat.ltb Nat.leb] in Lk. rewrite (lea_enc_keyed {| lea_r := 28; lea_k := lea_sched (N.to_nat 28) key |} 7 pt eq_refl Lk Hp). cbn [lea_k].
    rewrite lea_run_keyed by reflexivity. unfold lea_sched. rewrite <- Hk. cbn [Nat.ltb Nat.leb].
    rewrite (key32l_words key 6) by (auto; lia). rewrite zero_pad_full by lia.
    rewrite (lea_sched_keys 6 6 (fun _ c => c) (seq 0 6) lea_key192) by reflexivity. reflexivity.
  - rewrite <- Hk in Lk. cbn [Nat.ltb Nat.leb] in Lk. rewrite (lea_enc_keyed {| lea_r := 32; lea_k := lea_sched (N.to_nat 32) key |} 8 pt eq_refl Lk Hp). cbn [lea_k].
    rewrite lea_run_keyed by reflexivity. unfold lea_sched. rewrite <- Hk. cbn [Nat.ltb Nat.leb].
    rewrite (key32l_words key 8) by (auto; lia). rewrite zero_pad_full by lia.
    rewrite (lea_sched_keys 6 8 (fun i c => Nat.modulo (i * 6 + c) 8) (seq 0 6) lea_key256); [reflexivity|].
    intros T i. unfold lea_key256. rewrite (Nat.mul_comm 6 i). reflexivity.
Qed.

(** * GOST *)
Definition nibbles (sb : list (list N)) : Prop := Forall (Forall (fun x => x < 16)) sb.
Lemma nth_nibble sb j i : nibbles sb -> nth i (nth j sb []) 0 < 16.
Proof.
  intros H. destruct (Nat.lt_ge_cases j (length sb)) as [Hj|Hj]; [|rewrite (nth_overflow _ _ Hj); destruct i; reflexivity].
  destruct (Nat.lt_ge_cases i (length (nth j sb []))) as [Hi|Hi]; [|rewrite (nth_overflow _ _ Hi); reflexivity].
  unfold nibbles in H. rewrite Forall_forall in H. pose proof (H _ (nth_In sb [] Hj)) as H'. rewrite Forall_forall in H'. apply H', nth_In, Hi.
Qed.
Lemma pow16 j : 2 ^ (4 * N.of_nat j) = 16 ^ N.of_nat j.
Proof. now rewrite N.pow_mul_r. Qed.
Lemma gost_sub_digit sb j x : nibbles sb -> (j < 8)%nat ->
  gost_sub sb j x = N.shiftl (nth (N.to_nat (x / 16 ^ N.of_nat j mod 16)) (nth j sb []) 0) (4 * N.of_nat j).
Proof.
  intros H Hj. unfold gost_sub, wshl. rewrite wshr_div, pow16. change 15 with (N.ones 4). rewrite N.land_ones. change (2 ^ 4) with 16.
  rewrite mask_id; [reflexivity|]. unfold inw. rewrite N.shiftl_mul_pow2, pow16.
  pose proof (nth_nibble sb j (N.to_nat (x / 16 ^ N.of_nat j mod 16)) H) as B. set (v := nth _ (nth j sb []) 0) in *.
  assert (P : 16 ^ N.of_nat j <= 16 ^ 7) by (apply N.pow_le_mono_r; lia). change (2 ^ 32) with (16 * 16 ^ 7). nia.
Qed.
Lemma lor8 a b c d e f g h : N.lor (N.lor (N.lor (N.lor (N.lor (N.lor (N.lor a b) c) d) e) f) g) h =
  N.lor (N.lor (N.lor (N.lor (N.lor (N.lor (N.lor h g) f) e) d) c) b) a.
Proof.
  apply N.bits_inj. intros i. rewrite !N.lor_spec.
  destruct (N.testbit a i), (N.testbit b i), (N.testbit c i), (N.testbit d i), (N.testbit e i), (N.testbit f i), (N.testbit g i), (N.testbit h i); reflexivity.
Qed.
Lemma digits_lor (d : nat -> N) n : (forall j, d j < 16) ->
  fold_left (fun s j => N.lor s (N.shiftl (d j) (4 * N.of_nat j))) (seq 0 n) 0 = fold_left (fun s j => s + d j * 16 ^ N.of_nat j) (seq 0 n) 0 /\
  fold_left (fun s j => s + d j * 16 ^ N.of_nat j) (seq 0 n) 0 < 16 ^ N.of_nat n.
Proof.
  intros H. induction n as [|n [I1 I2]]; [split; reflexivity|].
  rewrite seq_S, !fold_left_app. cbn [fold_left Nat.add]. rewrite I1. rewrite lor_add by (rewrite pow16; exact I2). rewrite pow16. split; [reflexivity|].
  rewrite Nat2N.inj_succ, N.pow_succ_r'. specialize (H n). nia.
Qed.
Lemma gost_f_fn sb x : nibbles sb -> gost_f sb x = gost_fn sb x.
Proof.
  intros H. unfold gost_f, gost_fn. rewrite rol_rotl; [f_equal| |lia].
  - rewrite lor8, !gost_sub_digit by (auto; lia).
    pose proof (digits_lor (fun j => nth (N.to_nat (x / 16 ^ N.of_nat j mod 16)) (nth j sb []) 0) 8 (fun j => nth_nibble _ _ _ H)) as [E _].
    unfold gost_digit. rewrite <- E. cbn [seq fold_left]. now rewrite N.lor_0_l.
  - unfold gost_sub. wb.
Qed.
Lemma fold_twos {A} (g : A -> nat -> A) m : forall i x,
  fold_left g (seq (2 * i) (2 * m)) x = fold_left (fun y j => g (g y (2 * j)) (2 * j + 1))%nat (seq i m) x.
Proof.
  induction m as [|m IH]; intros i x; [reflexivity|].
  replace (2 * S m)%nat with (S (S (2 * m))) by lia. cbn [seq fold_left].
  replace (2 * i + 1)%nat with (S (2 * i)) by lia. rewrite <- IH. now replace (2 * S i)%nat with (S (S (2 * i))) by lia.
Qed.
Lemma gost_keys K : length K = 8%nat -> K ++ map (fun m => nth (m mod 8) K 0) (seq 0 16) ++ rev K = map (word K) gost_order.
Proof. intros L. do 8 (destruct K as [|? K]; [discriminate L|]). destruct K; [|discriminate L]. reflexivity. Qed.
Lemma fold_left_map {A B C} (f : A -> B -> A) (g : C -> B) l x : fold_left f (map g l) x = fold_left (fun a c => f a (g c)) l x.
Proof. revert x. induction l as [|c l IH]; intros x; [reflexivity|]. cbn [map fold_left]. apply IH. Qed.
Lemma gost_published sb : nibbles sb -> is_cipher (gost_desc sb) (sized [32%nat]) (gost_cipher sb).
Proof.
  intros Hs. apply (is_cipher_default _ _ _ (gost_default sb)); [intros key Hk; change (bc_maxkey (gost_desc sb)) with 32%nat; size_cases Hk; rewrite <- Hk; lia|].
  intros key s Hb Hk Es pt Hp. size_cases Hk. cbn [gost_desc bc_create bc_enc bc_bs] in *. unfold gost_create in Es. apply assert_inv in Es. destruct Es as [_ Es].
  apply fits_inv in Es. destruct Es as [_ Es]. apply fits_inv in Es. destruct Es as [_ Es]. apply Ok_inj in Es. subst s.
  unfold gost_encrypt, gost_setup. cbn [gost_k gost_r gost_s]. change (N.to_nat ((gost_rounds 0 + 1) / 2)) with 16%nat.
  assert (Ekl : gost_kl key = 8%nat) by (unfold gost_kl; now rewrite <- Hk). rewrite Ekl.
  change (N.to_nat (gost_rounds 0) - 2 * 8)%nat with 16%nat.
  rewrite (key32l_words key 8) by (auto; lia). rewrite zero_pad_full by lia.
  rewrite gost_keys by apply length_le_words. unfold gost_cipher. rewrite ld2_le32 by exact Hp.
  set (KS := map (word (le_words 4 8 key)) gost_order).
  assert (LK : length KS = 32%nat) by reflexivity. clearbody KS.
  assert (EK : map (word KS) (seq 0 (2 * 16)) = KS) by (apply (map_nth_seq KS 32 0); now rewrite LK).
  match goal with |- context [fold_left ?g KS ?v] => replace (fold_left g KS v) with (fold_left g (map (word KS) (seq 0 (2 * 16))) v) by now rewrite EK end.
  rewrite fold_left_map.
  rewrite (fold_twos _ 16 0).
  match goal with |- context [mfor ?n 0 ?f ?x] => match goal with |- context [fold_left ?g _ ?v] =>
    destruct (mfor_fold (fun _ y u => y = u) n 0%nat f g x v) as (z & Ez & Hz) end end.
  - intros t y u Ht ->. rewrite !(get_ok KS _ 0) by lia. cbn [bind]. eexists. split; [reflexivity|].
    unfold gost_step, gost_round, word. rewrite !gost_f_fn by exact Hs. cbn [fst snd]. rewrite !add32_wadd. reflexivity.
  - reflexivity.
  - rewrite Ez. cbn [bind]. rewrite Hz. cbn [Nat.add]. now rewrite st2_le32.
Qed.
Lemma gost_cbr_nibbles : nibbles gost_cbr. Proof. unfold gost_cbr. repeat constructor. Qed.
Lemma gost_r3412_nibbles : nibbles gost_r3412. Proof. unfold gost_r3412. repeat constructor. Qed.
