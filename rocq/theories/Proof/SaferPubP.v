(** SAFER K, SAFER SK and SAFER++ are the ciphers of their authors. *)
From Coq Require Import NArith Arith List Bool Lia.
From Verif Require Import Lib.Word Lib.Res Lib.Bytes Lib.Bits Lib.Bij Lib.Lists Lib.Feistel Lib.BlockLemmas Lib.Lin Lib.WordSpec Lib.WordsP
  Spec.Words Spec.Block Spec.Arx Spec.Pub3 Spec.Pub6 Model.LoadStore Model.BlockApi Model.Table Model.Safer Model.Saferpp Model.Ciphers
  Proof.LoadStoreP Proof.Sha1P Proof.ArxP Proof.PubLib Proof.TableP Proof.SaferP Proof.SaferppP Proof.RekeyP Proof.CiphersP Proof.SerpentPubP Proof.AriaPubP.
Import ListNotations.
Local Open Scope N_scope.

(** ** Tables *)
Fixpoint powers (n : nat) (x : N) : list N := match n with O => [] | S n => x :: powers n (45 * x mod 257) end.
Lemma nth_powers n : forall e x, (e < n)%nat -> x < 257 -> nth e (powers n x) 0 = (x * 45 ^ N.of_nat e) mod 257.
Proof.
  induction n as [|n IH]; intros e x He Hx; [lia|]. destruct e as [|e]; cbn [powers nth].
  - change (45 ^ N.of_nat 0) with 1. rewrite N.mul_1_r. symmetry. now apply N.mod_small.
  - rewrite IH by (try lia; apply N.mod_lt; discriminate). rewrite N.mul_mod_idemp_l by discriminate. f_equal. rewrite Nat2N.inj_succ, N.pow_succ_r'. lia.
Qed.
Definition exp_table (e : list N) : bool := if list_eq_dec N.eq_dec e (map (fun p => p mod 256) (powers 256 1)) then true else false.
Lemma safer_exp_check : exp_table safer_exp && exp_table spp_exp = true.
Proof. vm_compute. reflexivity. Qed.
Lemma sf_exp_pub e l x : exp_table e = true -> sf_tables e l -> x < 256 -> tab8 e x = sfr_exp x.
Proof.
  intros H _ Hx. unfold exp_table in H. destruct (list_eq_dec _ _ _) as [E|E]; [|discriminate H]. rewrite E. clear H E. unfold tab8, sfr_exp. rewrite byte_mod, (N.mod_small x) by exact Hx.
  rewrite <- (N2Nat.id x) at 2. rewrite <- (N.mul_1_l (45 ^ _)), <- (nth_powers 256) by (reflexivity || lia). change 0 with ((fun p => p mod 256) 0) at 1. apply map_nth.
Qed.
Lemma sf_log_pub e l x : exp_table e = true -> sf_tables e l -> x < 256 -> tab8 l x = sfr_log x.
Proof.
  intros H T Hx. pose proof T as (We & Wl & I). symmetry. unfold sfr_log. apply box_inverse_eq.
  - intros a Ha Ea. rewrite <- Ea, <- (sf_exp_pub e l a H T Ha). symmetry. now apply I.
  - rewrite <- (sf_exp_pub e l _ H T) by exact (tab8_inw 8 l x Wl). now apply I.
  - exact (tab8_inw 8 l x Wl).
Qed.

(** ** Layers *)
Lemma sf_out_pub j : sfr_outer j = sf_out j.
Proof. unfold sfr_outer, sf_out. pose proof (Nat.mod_upper_bound j 4 ltac:(lia)) as H. destruct (j mod 4)%nat as [|[|[|[|m]]]]; [reflexivity..|lia]. Qed.
Lemma length_each f g x k : length (sfr_each f g x k) = length x.
Proof. unfold sfr_each. now rewrite map_length, seq_length. Qed.
Lemma nth_each f g x k j : (j < length x)%nat -> nth j (sfr_each f g x k) 0 = (if sf_out j then f else g) (nth j x 0) (nth j k 0).
Proof. intros H. unfold sfr_each. rewrite Lists.nth_map_seq by exact H. cbn [plus]. now rewrite sf_out_pub. Qed.
Lemma sf_bytes_each n f F G k x : length x = n -> (forall j, (j < n)%nat -> f j (nth j x 0) (nth j k 0) = (if sf_out j then F else G) (nth j x 0) (nth j k 0)) ->
  sf_bytes n f k x = sfr_each F G x k.
Proof.
  intros L H. unfold sf_bytes, sfr_each. rewrite L. apply map_ext_in. intros j Hj. apply in_seq in Hj. rewrite sf_out_pub. apply H. lia.
Qed.
Lemma wadd8_sum a b : wadd 8 a b = sfr_sum a b.
Proof. exact (wadd_mod 8 a b). Qed.
Lemma sf_end_pub n k x : length x = n -> sf_end n k x = sfr_each sfr_xor sfr_sum x k.
Proof. intros L. apply sf_bytes_each; [exact L|]. intros j _. destruct (sf_out j); [reflexivity|apply wadd8_sum]. Qed.
Lemma sf_add_pub n k x : length x = n -> sf_add n k x = sfr_each sfr_sum sfr_xor x k.
Proof. intros L. apply sf_bytes_each; [exact L|]. intros j _. destruct (sf_out j); [apply wadd8_sum|reflexivity]. Qed.
Lemma sf_sub_pub e l n k x : exp_table e = true -> sf_tables e l -> regs 8 n x -> words_ok 8 k ->
  sf_sub e l n k x = sfr_boxes (sfr_each sfr_xor sfr_sum x k).
Proof.
  intros H T Hx Wk. unfold sfr_boxes, sf_sub, sf_bytes, sfr_each at 1. rewrite length_each, (proj1 Hx). apply map_ext_in. intros j Hj. apply in_seq in Hj.
  rewrite nth_each by (rewrite (proj1 Hx); lia). rewrite sf_out_pub.
  assert (Bx : nth j x 0 < 256) by exact (regs_nth 8 n x j Hx). assert (Bk : nth j k 0 < 256) by exact (words_nth 8 k j Wk).
  destruct (sf_out j).
  - apply (sf_exp_pub e l); [exact H|exact T|]. exact (inw_lxor 8 _ _ Bx Bk).
  - rewrite tab8_add, wadd8_sum. apply (sf_log_pub e l); [exact H|exact T|]. apply N.mod_lt. discriminate.
Qed.

Fixpoint pht2f (f : N -> N -> N) (l : list N) : list N :=
  match l with a :: b :: t => f a (f b a) :: f b a :: pht2f f t | _ => l end.
Fixpoint pht4f (f : N -> N -> N) (l : list N) : list N :=
  match l with
  | a :: b :: c :: d :: t => let e := f (f (f d a) b) c in f a e :: f b e :: f c e :: e :: pht4f f t
  | _ => l
  end.
Lemma pht2_wadd : forall n l, (length l <= n)%nat -> pht2 l = pht2f (wadd 8) l.
Proof.
  induction n as [|n IH]; intros l L; [destruct l; [reflexivity|cbn [length] in L; lia]|].
  destruct l as [|a [|b t]]; [reflexivity..|]. cbn [pht2 pht2f]. rewrite IH by (cbn [length] in L; lia). rewrite !wadd8_sum. unfold sfr_sum.
  rewrite N.add_mod_idemp_r by discriminate. f_equal; [f_equal; lia|]. f_equal. f_equal. lia.
Qed.
Lemma pht4_wadd : forall n l, (length l <= n)%nat -> pht4 l = pht4f (wadd 8) l.
Proof.
  induction n as [|n IH]; intros l L; [destruct l; [reflexivity|cbn [length] in L; lia]|].
  destruct l as [|a [|b [|c [|d t]]]]; [reflexivity..|]. cbn [pht4 pht4f]. rewrite IH by (cbn [length] in L; lia). cbv zeta.
  assert (E : wadd 8 (wadd 8 (wadd 8 d a) b) c = (a + b + c + d) mod 256).
  { rewrite !wadd8_sum. unfold sfr_sum. rewrite N.add_mod_idemp_l by discriminate. rewrite <- N.add_assoc, N.add_mod_idemp_l by discriminate. f_equal. lia. }
  rewrite !E, !wadd8_sum. unfold sfr_sum. rewrite !N.add_mod_idemp_r by discriminate.
  f_equal; [f_equal; lia|]. f_equal; [f_equal; lia|]. f_equal; f_equal; lia.
Qed.
Definition plusf (f : N -> N -> N) (o : nat * nat) (x : list N) : list N := upd x (fst o) (f (nth (fst o) x 0) (nth (snd o) x 0)).
Lemma safer_lin x : length x = 8%nat -> sf_moves 8 Model.Safer.safer_perm (prun sf_plus safer_pht x) = safer_M x.
Proof.
  intros L. change sf_plus with (plusf (wadd 8)). unfold safer_M. rewrite !(pht2_wadd _ _ (le_n _)). generalize (wadd 8). intros f.
  do 8 (destruct x as [|? x]; [discriminate L|]). destruct x; [|discriminate L]. reflexivity.
Qed.
Lemma saferpp_lin x : length x = 16%nat -> sf_moves 16 spp_perm (prun sf_plus spp_pht x) = saferpp_M x.
Proof.
  intros L. change sf_plus with (plusf (wadd 8)). unfold saferpp_M. rewrite !(pht4_wadd _ _ (le_n _)). generalize (wadd 8). intros f.
  do 16 (destruct x as [|? x]; [discriminate L|]). destruct x; [|discriminate L]. reflexivity.
Qed.

(** ** Subkeys *)
Definition rt (r : nat) (v : N) : N := rotl 8 v (N.of_nat (r mod 8)).
Definition rt_ok (v : N) : bool :=
  (rotl 8 v 0 =? v) && forallb (fun r => let r := N.of_nat r in (rol 8 (rotl 8 v r) 6 =? rotl 8 v ((r + 6) mod 8)) && (rotl 8 v r <? 256)) (seq 0 8) && (rol 8 v 5 =? rotl 8 v 5).
Lemma rt_check : forallb rt_ok bytesN = true.
Proof. vm_compute. reflexivity. Qed.
Lemma rt_0 v : v < 256 -> rt 0 v = v.
Proof. intros H. pose proof (bytes_check _ v rt_check H) as E. unfold rt_ok in E. rewrite !andb_true_iff in E. apply N.eqb_eq, (proj1 (proj1 E)). Qed.
Lemma rt_5 v : v < 256 -> rol 8 v 5 = rt 5 v.
Proof. intros H. pose proof (bytes_check _ v rt_check H) as E. unfold rt_ok in E. rewrite !andb_true_iff in E. apply N.eqb_eq, (proj2 E). Qed.
Lemma rt_6 r v : v < 256 -> rol 8 (rt r v) 6 = rt (r + 6) v.
Proof.
  intros H. pose proof (bytes_check _ v rt_check H) as E. unfold rt_ok in E. rewrite !andb_true_iff in E. destruct E as [[_ E] _]. rewrite forallb_forall in E.
  pose proof (Nat.mod_upper_bound r 8 ltac:(lia)) as U. specialize (E (r mod 8)%nat ltac:(apply in_seq; lia)). cbv zeta in E. apply andb_true_iff in E. destruct E as [E _]. apply N.eqb_eq in E.
  unfold rt. rewrite E. f_equal. rewrite <- (Nat.add_mod_idemp_l r 6 8) by lia. change 6 with (N.of_nat 6). change 8 with (N.of_nat 8). rewrite <- Nat2N.inj_add. symmetry. apply Nat2N.inj_mod.
Qed.
Lemma rt_lt r v : v < 256 -> rt r v < 256.
Proof.
  intros H. pose proof (bytes_check _ v rt_check H) as E. unfold rt_ok in E. rewrite !andb_true_iff in E. destruct E as [[_ E] _]. rewrite forallb_forall in E.
  pose proof (Nat.mod_upper_bound r 8 ltac:(lia)) as U. specialize (E (r mod 8)%nat ltac:(apply in_seq; lia)). cbv zeta in E. apply andb_true_iff in E. apply N.ltb_lt, (proj2 E).
Qed.
Lemma rt_zero r : rt r 0 = 0.
Proof. unfold rt, rotl. rewrite N.mul_0_l. cbn [N.modulo N.div_eucl snd N.add]. apply N.div_0_l. apply N.pow_nonzero. discriminate. Qed.
Lemma rt_8 r : rt (r + 8) = rt r.
Proof. unfold rt. replace ((r + 8) mod 8)%nat with (r mod 8)%nat; [reflexivity|]. symmetry. exact (Nat.mod_add r 1 8 ltac:(lia)). Qed.
Lemma map_rt6 r E : bytes_ok E -> map (fun v => rol 8 v 6) (map (rt r) E) = map (rt (r + 6)) E.
Proof. intros B. rewrite map_map. apply map_ext_Forall. induction B; constructor; [now apply rt_6|assumption]. Qed.
Lemma nth_rt r E j : nth j (map (rt r) E) 0 = rt r (nth j E 0).
Proof. rewrite <- (rt_zero r) at 1. apply map_nth. Qed.
Lemma parity_bytes l : bytes_ok l -> bytes_ok (sfr_parity l).
Proof.
  intros B. unfold sfr_parity. apply bytes_app. split; [exact B|]. constructor; [|constructor].
  assert (G : forall m x, bytes_ok m -> x < 256 -> fold_left N.lxor m x < 256).
  { induction m as [|y m IH]; intros x Bm Hx; [exact Hx|]. apply Forall_inv in Bm as Hy. apply Forall_inv_tail in Bm. cbn [fold_left]. apply IH; [exact Bm|exact (inw_lxor 8 _ _ Hx Hy)]. }
  now apply G.
Qed.
Lemma parity_rol5 l : bytes_ok l -> sf_parity (map (fun v => rol 8 v 5) l) = map (rt 5) (sfr_parity l).
Proof.
  intros B. unfold sf_parity, sfr_parity. rewrite map_app. cbn [map]. f_equal.
  - apply map_ext_Forall. induction B; constructor; [now apply rt_5|assumption].
  - f_equal. assert (G : forall m x, bytes_ok m -> x < 256 -> fold_left N.lxor (map (fun v => rol 8 v 5) m) (rol 8 x 5) = rt 5 (fold_left N.lxor m x)).
    { induction m as [|y m IH]; intros x Bm Hx; [now apply rt_5|]. apply Forall_inv in Bm as Hy. apply Forall_inv_tail in Bm. cbn [map fold_left].
      rewrite <- rol_lxor by (assumption || lia). apply IH; [exact Bm|exact (inw_lxor 8 _ _ Hx Hy)]. }
    exact (G l 0 B eq_refl).
Qed.

Definition exp_wide (e : list N) : bool :=
  let p := powers 256 1 in forallb (fun c => tab8 e (N.of_nat c) =? nth c p 0 mod 256) (seq 0 256).
Lemma exp_wide_check : exp_wide safer_exp && exp_wide spp_exp = true.
Proof. vm_compute. reflexivity. Qed.
Lemma pow45_mod c : 45 ^ c mod 257 = 45 ^ (c mod 256) mod 257.
Proof.
  rewrite (N.div_mod c 256) at 1 by discriminate. generalize (c / 256) (c mod 256). intros q r. clear c. rewrite N.pow_add_r, N.pow_mul_r.
  assert (E : (45 ^ 256) ^ q mod 257 = 1).
  { assert (E1 : 45 ^ 256 mod 257 = 1) by (vm_compute; reflexivity). revert E1. generalize (45 ^ 256). intros a E1. induction q as [|q IH] using N.peano_ind; [reflexivity|].
    rewrite N.pow_succ_r', N.mul_mod, E1, IH by discriminate. reflexivity. }
  rewrite N.mul_mod, E, N.mul_1_l, N.mod_mod by discriminate. reflexivity.
Qed.
Lemma exp_wide_pub e c : exp_wide e = true -> tab8 e c = sfr_exp c.
Proof.
  intros H. transitivity (sfr_exp (c mod 256)); [|unfold sfr_exp; now rewrite <- pow45_mod].
  assert (Hc : c mod 256 < 256) by (apply N.mod_lt; discriminate).
  transitivity (tab8 e (c mod 256)); [unfold tab8; rewrite !byte_mod, N.mod_mod by discriminate; reflexivity|]. revert Hc. generalize (c mod 256). clear c. intros c Hc.
  unfold exp_wide in H. cbv zeta in H. rewrite forallb_forall in H. specialize (H (N.to_nat c) ltac:(apply in_seq; lia)). cbv beta in H. apply N.eqb_eq in H. rewrite N2Nat.id in H.
  rewrite H, nth_powers by (reflexivity || lia). now rewrite N.mul_1_l, N2Nat.id.
Qed.
Lemma exp_exp e c : exp_wide e = true -> tab8 e (tab8 e c) = sfr_exp (45 ^ c mod 257).
Proof.
  intros H. rewrite <- (exp_wide_pub e _ H), (exp_wide_pub e c H). unfold sfr_exp. set (v := 45 ^ c mod 257). unfold tab8. rewrite !byte_mod, N.mod_mod by discriminate. reflexivity.
Qed.
Section Keys.
  Variables (n : nat) (sel : nat -> nat -> nat) (bias : nat -> nat -> N) (a b : list N).
  Hypothesis Ba : bytes_ok a.
  Hypothesis Bb : bytes_ok b.
  Hypothesis Lb : length b = n.
  Hypothesis S1 : forall j, (j < n)%nat -> sel 1%nat j = j.
  Let K := sfr_subkey n sel bias a b.
  Definition gstep (m : nat) (st : list N * list N * list N) : list N * list N * list N :=
    let '(ks, ka, kb) := st in
    let ka := map (fun v => rol 8 v 6) ka in
    let kb := map (fun v => rol 8 v 6) kb in
    (ks ++ map (fun j => wadd 8 (nth (sel (2 * m) j) ka 0) (bias (2 * m) j)) (seq 0 n) ++
       map (fun j => wadd 8 (nth (sel (2 * m + 1) j) kb 0) (bias (2 * m + 1) j)) (seq 0 n), ka, kb).
  Lemma K_len i : length (K i) = n.
  Proof. unfold K, sfr_subkey. now rewrite map_length, seq_length. Qed.
  Lemma K_one : K 1 = b.
  Proof.
    unfold K, sfr_subkey. cbn [Nat.even Nat.eqb]. transitivity (map (fun j => nth j b 0) (seq 0 n)); [|now apply map_nth_all].
    apply map_ext_in. intros j Hj. apply in_seq in Hj. rewrite S1 by lia. unfold sfr_parity. rewrite app_nth1 by lia. apply rt_0. exact (words_nth 8 b j Bb).
  Qed.
  Lemma K_ok i : words_ok 8 (K i).
  Proof.
    unfold K, sfr_subkey. apply Forall_forall. intros v Hv. apply in_map_iff in Hv. destruct Hv as (j & <- & _).
    set (h := sfr_parity _). assert (B : bytes_ok h) by (unfold h; apply parity_bytes; destruct (Nat.even i); assumption).
    cbv zeta. destruct (Nat.eqb i 1); [|unfold inw; apply N.mod_lt; discriminate]. apply rt_lt. exact (words_nth 8 h _ B).
  Qed.
  Definition kstate (m : nat) (st : list N * list N * list N) : Prop :=
    fst (fst st) = flat_map K (seq 1 (2 * m - 1)) /\ snd (fst st) = map (rt (6 * m - 1)) (sfr_parity a) /\ snd st = map (rt (6 * (m - 1))) (sfr_parity b).
  Lemma gstep_state m st : (1 <= m)%nat -> kstate m st -> kstate (S m) (gstep m st).
  Proof.
    destruct st as [[ks ka] kb]. intros Hm (E1 & E2 & E3). cbn [fst snd] in *. unfold gstep, kstate. cbn [fst snd]. subst ks ka kb.
    rewrite !map_rt6 by (now apply parity_bytes). replace (6 * (m - 1) + 6)%nat with (6 * m)%nat by lia. replace (6 * (S m - 1))%nat with (6 * m)%nat by lia.
    replace (6 * S m - 1)%nat with (6 * m - 1 + 6)%nat by lia. split; [|split; reflexivity].
    replace (2 * S m - 1)%nat with (2 * m - 1 + 2)%nat by lia. rewrite seq_app, flat_map_app. f_equal.
    replace (1 + (2 * m - 1))%nat with (2 * m)%nat by lia. cbn [seq flat_map]. rewrite app_nil_r. replace (2 * m + 1)%nat with (S (2 * m)) by lia. f_equal.
    - unfold K, sfr_subkey. apply map_ext. intros j. rewrite nth_rt, (proj2 (Nat.even_spec (2 * m))) by (exists m; reflexivity).
      rewrite (proj2 (Nat.eqb_neq (2 * m) 1)) by lia. cbv zeta. rewrite wadd_mod. change (2 ^ 8) with 256. f_equal. f_equal.
      replace (6 * m - 1 + 6)%nat with (3 * (2 * m - 1) + 8)%nat by lia. now rewrite rt_8.
    - unfold K, sfr_subkey. apply map_ext. intros j. rewrite nth_rt.
      replace (Nat.even (S (2 * m))) with false by (rewrite Nat.even_succ, <- Nat.negb_even, (proj2 (Nat.even_spec (2 * m))) by (exists m; reflexivity); reflexivity).
      rewrite (proj2 (Nat.eqb_neq (S (2 * m)) 1)) by lia. cbv zeta. rewrite wadd_mod. change (2 ^ 8) with 256. f_equal. f_equal.
      replace (3 * (S (2 * m) - 1))%nat with (6 * m)%nat by lia. reflexivity.
  Qed.
  Lemma gsteps r f : (forall m st, (1 <= m <= r)%nat -> f m st = gstep m st) ->
    fst (fst (pfor r 1 f (b, sf_parity (map (fun v => rol 8 v 5) a), sf_parity b))) = flat_map K (seq 1 (2 * r + 1)).
  Proof.
    intros Hf. pose proof (pfor_fold (fun m st (_ : unit) => kstate m st) r 1 f (fun u _ => u) (b, sf_parity (map (fun v => rol 8 v 5) a), sf_parity b) tt) as H.
    assert (G : kstate (1 + r) (pfor r 1 f (b, sf_parity (map (fun v => rol 8 v 5) a), sf_parity b))).
    { apply H.
      - intros t y u Ht Hy. rewrite Hf by lia. apply gstep_state; [lia|exact Hy].
      - unfold kstate. cbn [fst snd]. split; [|split].
        + cbn [Nat.mul Nat.add Nat.sub seq flat_map]. now rewrite K_one, app_nil_r.
        + now rewrite parity_rol5.
        + symmetry. transitivity (map (fun v => v) (sfr_parity b)); [|apply map_id]. apply map_ext_Forall. pose proof (parity_bytes b Bb) as B. induction B; constructor; [now apply rt_0|assumption]. }
    destruct G as [G _]. rewrite G. f_equal. f_equal. lia.
  Qed.
End Keys.

(** ** Encryption *)
Definition genc (n : nat) (e l : list N) (M : list N -> list N) (ks : list N) (r : nat) (pt : list N) : res (list N) :=
  let* x := mfor r 0 (fun i x =>
    let* k := sf_key ks (2 * n * i) n in
    let* k' := sf_key ks (2 * n * i + n) n in
    Ok (M (sf_add n k' (sf_sub e l n k x)))) pt in
  let* k := sf_key ks (2 * n * r) n in
  Ok (sf_end n k x).
Lemma fold_shift {A} (G : A -> nat -> A) r : forall i x, fold_left (fun u t => G u (S t)) (seq i r) x = fold_left G (seq (S i) r) x.
Proof. induction r as [|r IH]; intros i x; [reflexivity|]. cbn [seq fold_left]. apply IH. Qed.
Lemma genc_pub n e l M Ms K r pt : exp_table e = true -> sf_tables e l -> (forall i, length (K i) = n) -> (forall i, words_ok 8 (K i)) ->
  (forall x, length x = n -> M x = Ms x) -> (forall x, regs 8 n x -> regs 8 n (M x)) -> blk n pt ->
  genc n e l M (flat_map K (seq 1 (2 * r + 1))) r pt = Ok (sfr_full Ms K r pt).
Proof.
  intros He T LK WK HM RM Hp. unfold genc, sfr_full. set (ks := flat_map K (seq 1 (2 * r + 1))).
  assert (Lks : length ks = (n * (2 * r + 1))%nat).
  { unfold ks. generalize (2 * r + 1)%nat as m. generalize 1%nat as i. intros i m. revert i. induction m as [|m IH]; intros i; [cbn; lia|]. cbn [seq flat_map]. rewrite app_length, LK, IH. lia. }
  assert (KS : forall o j, o = (n * j)%nat -> (j < 2 * r + 1)%nat -> sf_key ks o n = Ok (K (S j))).
  { intros o j -> Hj. rewrite sf_key_ok by (rewrite Lks; nia). unfold ks. rewrite (slice_flat_map K n (2 * r + 1) LK 1 j Hj). reflexivity. }
  pose (G := fun x i => sfr_round Ms (K (2 * i - 1)%nat) (K (2 * i)%nat) x).
  destruct (mfor_fold (fun _ y u => y = u /\ regs 8 n y) r 0 (fun i x =>
    let* k := sf_key ks (2 * n * i) n in
    let* k' := sf_key ks (2 * n * i + n) n in
    Ok (M (sf_add n k' (sf_sub e l n k x)))) (fun u t => G u (S t)) pt pt) as (z & Ez & Ez' & Rz).
  - intros t y u Ht [<- Ry]. rewrite (KS _ (2 * t)%nat), (KS _ (2 * t + 1)%nat) by lia. cbn [bind]. eexists. split; [reflexivity|].
    assert (R1 : regs 8 n (sf_sub e l n (K (S (2 * t))) y)) by (apply (sf_sub_pbij e l n _ T (WK _)), Ry).
    assert (R2 : regs 8 n (sf_add n (K (S (2 * t + 1))) (sf_sub e l n (K (S (2 * t))) y))) by (apply (sf_add_pbij n _ (WK _)), R1).
    split; [|now apply RM]. unfold G, sfr_round. replace (2 * S t - 1)%nat with (S (2 * t)) by lia. replace (2 * S t)%nat with (S (2 * t + 1)) by lia.
    rewrite HM by apply R2. rewrite (sf_add_pub n) by apply R1. now rewrite (sf_sub_pub e l n _ y He T Ry (WK _)).
  - split; [reflexivity|exact Hp].
  - rewrite Ez. cbn [bind]. rewrite (KS _ (2 * r)%nat) by lia. cbn [bind]. rewrite fold_shift in Ez'. fold G. rewrite <- Ez'. rewrite sf_end_pub by apply Rz.
    now replace (2 * r + 1)%nat with (S (2 * r)) by lia.
Qed.

Lemma safer_create_gen sk r key s : safer_create sk r key = Ok s -> safer_setup sk (safer_rounds r key) key = Ok s.
Proof. intros H. unfold safer_create in H. apply assert_inv in H. destruct H as [_ H]. cbv zeta in H. apply fits_inv in H. exact (proj2 H). Qed.
Lemma saferpp_create_gen r key s : saferpp_create r key = Ok s -> spp_setup (saferpp_rounds r key) key = Ok s.
Proof. intros H. unfold saferpp_create in H. apply assert_inv in H. destruct H as [_ H]. cbv zeta in H. apply fits_inv in H. exact (proj2 H). Qed.
Lemma safer_tabs : exp_table safer_exp = true /\ exp_table spp_exp = true.
Proof. pose proof safer_exp_check as H. now apply andb_true_iff in H. Qed.
Lemma safer_wides : exp_wide safer_exp = true /\ exp_wide spp_exp = true.
Proof. pose proof exp_wide_check as H. now apply andb_true_iff in H. Qed.
Lemma safer_keys_pub sk r key a b s : bytes_ok a -> bytes_ok b -> length b = 8%nat ->
  slice 0 8 key = a -> slice 0 8 (if Nat.ltb 8 (length key) then skipn 8 key else key) = b -> (8 <= length key)%nat -> (length key <= 8 \/ 16 <= length key)%nat ->
  safer_setup sk r key = Ok s -> safer_r s = r /\ safer_k s = flat_map (sfr_subkey 8 (safer_sel sk) safer_bias a b) (seq 1 (2 * N.to_nat r + 1)).
Proof.
  intros Ba Bb Lb Ea Eb L8 L16 H. unfold safer_setup in H. cbv zeta in H. rewrite (sf_key_ok key) in H by lia. cbn [bind] in H. rewrite sf_key_ok in H.
  2: { destruct (Nat.ltb_spec 8 (length key)); [rewrite skipn_length; lia|lia]. }
  cbn [bind] in H. rewrite Ea, Eb in H.
  assert (S1 : forall j, (j < 8)%nat -> safer_sel sk 1 j = j) by (intros j Hj; unfold safer_sel; destruct sk; [apply Nat.mod_small; lia|reflexivity]).
  pose proof (gsteps 8 (safer_sel sk) safer_bias a b Ba Bb Lb S1 (N.to_nat r) (safer_step sk)) as G.
  destruct (pfor (N.to_nat r) 1 (safer_step sk) _) as [[ks ka] kb]. apply Ok_inj in H. subst s. cbn [safer_r safer_k]. split; [reflexivity|]. apply G. clear G.
  intros m [[k1 k2] k3] Hm. unfold safer_step, gstep. cbv zeta. f_equal. f_equal. f_equal. destruct safer_wides as [W _]. f_equal; apply map_ext_in; intros j Hj; apply in_seq in Hj.
  - unfold safer_bias. rewrite (exp_exp _ _ W). unfold safer_sel. now replace (9 * (2 * m) + 1 + j)%nat with (9 * (2 * m) + (j + 1))%nat by lia.
  - unfold safer_bias. rewrite (exp_exp _ _ W). unfold safer_sel. replace (2 * m + 1 - 1 + j)%nat with (2 * m + j)%nat by lia.
    now replace (9 * (2 * m) + 10 + j)%nat with (9 * (2 * m + 1) + (j + 1))%nat by lia.
Qed.
Lemma safer_any_enc sk r key s pt : bytes_ok key -> (length key = 8 \/ length key = 16)%nat -> safer_create sk r key = Ok s -> blk 8 pt ->
  safer_encrypt s pt = Ok (sfr_full safer_M (sfr_subkey 8 (safer_sel sk) safer_bias (firstn 8 key) (if Nat.eqb (length key) 16 then skipn 8 key else key)) (N.to_nat (safer_rounds r key)) pt).
Proof.
  intros Hb Hl Es Hp. apply safer_create_gen in Es.
  set (Ka := firstn 8 key). set (Kb := if Nat.eqb (length key) 16 then skipn 8 key else key).
  assert (Ba : bytes_ok Ka) by now apply (words_firstn 8). assert (Bb : bytes_ok Kb) by (unfold Kb; destruct (Nat.eqb _ _); [now apply (words_skipn 8)|exact Hb]).
  assert (Lb : length Kb = 8%nat) by (unfold Kb; destruct Hl as [E|E]; rewrite E; cbn [Nat.eqb]; [exact E|rewrite skipn_length; lia]).
  assert (EKb : slice 0 8 (if Nat.ltb 8 (length key) then skipn 8 key else key) = Kb).
  { replace (if Nat.ltb 8 (length key) then skipn 8 key else key) with Kb; [unfold slice; cbn [skipn]; apply firstn_all2; lia|]. unfold Kb. destruct Hl as [E|E]; rewrite E; reflexivity. }
  destruct (safer_keys_pub sk (safer_rounds r key) key Ka Kb s) as [R1 R2]; try assumption; try lia; [reflexivity|].
  transitivity (genc 8 safer_exp safer_log (fun x => sf_moves 8 Model.Safer.safer_perm (prun sf_plus safer_pht x)) (safer_k s) (N.to_nat (safer_r s)) pt); [reflexivity|].
  rewrite R2, R1. apply genc_pub; [apply safer_tabs|exact safer_tables|apply K_len|intros i; now apply K_ok|exact safer_lin| |exact Hp].
  intros x Hx. exact (proj1 (proj1 safer_perm_pbij _ (proj1 (proj1 safer_pht_pbij x Hx)))).
Qed.

Lemma safer_published sk : is_cipher (safer_desc sk) (sized [8; 16]%nat) (safer_cipher sk).
Proof.
  assert (HL : forall key, sized [8; 16]%nat key -> length key = 8%nat \/ length key = 16%nat) by (intros key [E|[E|[]]]; [left|right]; now symmetry).
  apply is_cipher_intro; [intros key Hb Hk; apply HL in Hk; apply safer_default; [split; [exact Hb|lia]|exact Hk]|].
  intros key s Hb Hk Es pt Hp. apply HL in Hk as Hl. clear HL Hk. change (bc_create (safer_desc sk)) with (safer_create sk) in Es.
  change (bc_enc (safer_desc sk)) with safer_encrypt. change (bc_bs (safer_desc sk)) with 8%nat in Hp. unfold safer_cipher.
  rewrite (safer_any_enc sk 0 key s pt Hb Hl Es Hp). f_equal. f_equal. unfold safer_rounds. destruct Hl as [E|E]; rewrite E; reflexivity.
Qed.

Lemma saferpp_keys_pub r key a b s : bytes_ok a -> bytes_ok b -> length b = 16%nat ->
  slice 0 16 key = b -> slice 0 16 (if Nat.ltb 16 (length key) then skipn 16 key else key) = a -> (16 <= length key)%nat -> (length key <= 16 \/ 32 <= length key)%nat ->
  spp_setup r key = Ok s -> spp_r s = r /\ spp_k s = flat_map (sfr_subkey 16 saferpp_sel saferpp_bias a b) (seq 1 (2 * N.to_nat r + 1)).
Proof.
  intros Ba Bb Lb Ea Eb L8 L16 H. unfold spp_setup in H. cbv zeta in H. rewrite sf_key_ok in H.
  2: { destruct (Nat.ltb_spec 16 (length key)); [rewrite skipn_length; lia|lia]. }
  cbn [bind] in H. rewrite (sf_key_ok key) in H by lia. cbn [bind] in H. rewrite Ea, Eb in H.
  assert (S1 : forall j, (j < 16)%nat -> saferpp_sel 1 j = j) by (intros j Hj; unfold saferpp_sel; apply Nat.mod_small; lia).
  pose proof (gsteps 16 saferpp_sel saferpp_bias a b Ba Bb Lb S1 (N.to_nat r) spp_step) as G.
  destruct (pfor (N.to_nat r) 1 spp_step _) as [[ks ka] kb]. apply Ok_inj in H. subst s. cbn [spp_r spp_k]. split; [reflexivity|]. apply G. clear G.
  intros m [[k1 k2] k3] Hm. unfold spp_step, gstep. cbv zeta. f_equal. f_equal. f_equal. destruct safer_wides as [_ W].
  f_equal; apply map_ext_in; intros j Hj; apply in_seq in Hj; f_equal; unfold saferpp_sel, saferpp_bias.
  - replace (17 * (2 * m) + j + 1)%nat with (17 * (2 * m) + (j + 1))%nat by lia. rewrite (exp_exp _ _ W), (exp_wide_pub _ _ W). unfold sfr_exp at 2. cbv zeta.
    destruct (Nat.ltb_spec (2 * m) 16), (Nat.leb_spec (2 * m) 15); reflexivity || lia.
  - now replace (2 * m + 1 - 1 + j)%nat with (2 * m + j)%nat by lia.
  - replace (17 * (2 * m + 1) + j + 1)%nat with (17 * (2 * m + 1) + (j + 1))%nat by lia. rewrite (exp_exp _ _ W), (exp_wide_pub _ _ W). unfold sfr_exp at 2. cbv zeta.
    destruct (Nat.ltb_spec (2 * m) 15), (Nat.leb_spec (2 * m + 1) 15); reflexivity || lia.
Qed.
Lemma saferpp_any_enc r key s pt : bytes_ok key -> (length key = 16 \/ length key = 32)%nat -> saferpp_create r key = Ok s -> blk 16 pt ->
  saferpp_encrypt s pt = Ok (sfr_full saferpp_M (sfr_subkey 16 saferpp_sel saferpp_bias (if Nat.eqb (length key) 32 then skipn 16 key else key) (firstn 16 key)) (N.to_nat (saferpp_rounds r key)) pt).
Proof.
  intros Hb Hl Es Hp. apply saferpp_create_gen in Es.
  set (Kb := firstn 16 key). set (Ka := if Nat.eqb (length key) 32 then skipn 16 key else key).
  assert (Bb : bytes_ok Kb) by now apply (words_firstn 8). assert (Ba : bytes_ok Ka) by (unfold Ka; destruct (Nat.eqb _ _); [now apply (words_skipn 8)|exact Hb]).
  assert (Lb : length Kb = 16%nat) by (unfold Kb; rewrite firstn_length; lia).
  assert (La : length Ka = 16%nat) by (unfold Ka; destruct Hl as [E|E]; rewrite E; cbn [Nat.eqb]; [exact E|rewrite skipn_length; lia]).
  assert (EKa : slice 0 16 (if Nat.ltb 16 (length key) then skipn 16 key else key) = Ka).
  { replace (if Nat.ltb 16 (length key) then skipn 16 key else key) with Ka; [unfold slice; cbn [skipn]; apply firstn_all2; lia|]. unfold Ka. destruct Hl as [E|E]; rewrite E; reflexivity. }
  destruct (saferpp_keys_pub (saferpp_rounds r key) key Ka Kb s) as [R1 R2]; try assumption; try lia; [reflexivity|].
  transitivity (genc 16 spp_exp spp_log (fun x => sf_moves 16 spp_perm (prun sf_plus spp_pht x)) (spp_k s) (N.to_nat (spp_r s)) pt); [reflexivity|].
  rewrite R2, R1. apply genc_pub; [apply safer_tabs|exact saferpp_tables|apply K_len|intros i; now apply K_ok|exact saferpp_lin| |exact Hp].
  intros x Hx. exact (proj1 (proj1 saferpp_perm_pbij _ (proj1 (proj1 saferpp_pht_pbij x Hx)))).
Qed.
Lemma saferpp_published : is_cipher saferpp_desc (sized [16; 32]%nat) saferpp_cipher.
Proof.
  assert (HL : forall key, sized [16; 32]%nat key -> length key = 16%nat \/ length key = 32%nat) by (intros key [E|[E|[]]]; [left|right]; now symmetry).
  apply is_cipher_intro; [intros key Hb Hk; apply HL in Hk; apply saferpp_default; [split; [exact Hb|lia]|exact Hk]|].
  intros key s Hb Hk Es pt Hp. apply HL in Hk as Hl. clear HL Hk. change (bc_create saferpp_desc) with saferpp_create in Es.
  change (bc_enc saferpp_desc) with saferpp_encrypt. change (bc_bs saferpp_desc) with 16%nat in Hp. unfold saferpp_cipher.
  rewrite (saferpp_any_enc 0 key s pt Hb Hl Es Hp). f_equal. f_equal. unfold saferpp_rounds. destruct Hl as [E|E]; rewrite E; reflexivity.
Qed.
