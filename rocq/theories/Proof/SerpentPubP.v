(** Serpent is the published cipher. *)
From Coq Require Import NArith Arith List Bool Lia.
From Verif Require Import Lib.Word Lib.Res Lib.Bytes Lib.Bij Lib.Bits Lib.Lists Lib.BlockLemmas Lib.WordSpec Lib.WordsP Lib.XorSolve
  Spec.Words Spec.Block Spec.Arx Spec.Affine Spec.Pub2 Spec.Rounds Model.LoadStore Model.BlockApi Model.Serpent Model.Ciphers
  Proof.LoadStoreP Proof.Sha1P Proof.ArxP Proof.LeaPubP Proof.PubLib Proof.SerpentP Proof.RekeyP Proof.CiphersP Proof.ColumnsP.
Import ListNotations.
Local Open Scope N_scope.

(** Lists of groups of words *)
Lemma slice_flat_map {A} (f : nat -> list A) m n : (forall i, length (f i) = m) -> forall a j, (j < n)%nat ->
  slice (m * j) m (flat_map f (seq a n)) = f (a + j)%nat.
Proof.
  intros L. induction n as [|n IH]; intros a j Hj; [lia|]. cbn [seq flat_map]. unfold slice. destruct j as [|j].
  - rewrite Nat.mul_0_r. cbn [skipn]. rewrite firstn_app, L, Nat.sub_diag, firstn_O, app_nil_r, Nat.add_0_r. apply firstn_all2. rewrite L. lia.
  - rewrite skipn_app, L. rewrite (skipn_all2 (f a)) by (rewrite L; lia). cbn [app].
    replace (m * S j - m)%nat with (m * j)%nat by lia. replace (a + S j)%nat with (S a + j)%nat by lia. apply IH. lia.
Qed.
Lemma fold_groups {A} (g : A -> nat -> A) m n : forall i x,
  fold_left g (seq (m * i) (m * n)) x = fold_left (fun x j => fold_left g (seq (m * j) m) x) (seq i n) x.
Proof.
  induction n as [|n IH]; intros i x; [now rewrite Nat.mul_0_r|].
  replace (m * S n)%nat with (m + m * n)%nat by lia. rewrite seq_app, fold_left_app. cbn [seq fold_left].
  rewrite <- IH. now replace (m * S i)%nat with (m * i + m)%nat by lia.
Qed.

(** S-boxes *)
Lemma serp_code p out S x : column_check 1 p out S = true -> length out = 4%nat -> regs 32 4 x -> slices 32 1 p out x = sub_columns 32 S x.
Proof. intros C L [Lx Wx]. now apply slices_columns. Qed.
Ltac serp_box := apply serp_code; [vm_compute; reflexivity|reflexivity|assumption].
Lemma serp_s_S b x : (b < 8)%nat -> regs 32 4 x -> serp_s b x = serpent_S b x.
Proof.
  intros Hb Hx. unfold serpent_S. do 8 (destruct b as [|b]; [unfold serp_s; cbn [Nat.modulo Nat.divmod fst snd Nat.sub nth serpent_tables]; serp_box|]). lia.
Qed.
Lemma serpent_S_mod i x : serpent_S (i mod 8) x = serpent_S i x.
Proof. unfold serpent_S. now rewrite Nat.mod_mod by discriminate. Qed.
Lemma serp_ks_S i x : regs 32 4 x -> serp_ks (i mod 8) x = serpent_S (3 + 7 * i) x.
Proof.
  intros Hx.
  assert (E : forall b, (b < 8)%nat -> serp_ks b x = serpent_S (11 - b) x).
  { intros b Hb. unfold serpent_S. do 8 (destruct b as [|b]; [unfold serp_ks; cbn [Nat.modulo Nat.divmod fst snd Nat.sub nth serpent_tables]; serp_box|]). lia. }
  pose proof (Nat.mod_upper_bound i 8 ltac:(discriminate)) as Hb.
  rewrite E by exact Hb. rewrite <- serpent_S_mod, <- (serpent_S_mod (3 + 7 * i)). f_equal.
  pose proof (Nat.div_mod i 8 ltac:(discriminate)) as D. set (b := (i mod 8)%nat) in *. set (q := (i / 8)%nat) in *. clearbody b q. subst i.
  replace (3 + 7 * (8 * q + b))%nat with (3 + 7 * b + (7 * q) * 8)%nat by lia. rewrite Nat.mod_add by discriminate.
  do 8 (destruct b as [|b]; [reflexivity|]). lia.
Qed.
Lemma serpent_S_regs i x : regs 32 4 (serpent_S i x).
Proof. now apply sub_columns_regs. Qed.

(** The linear map *)
Lemma inw_rotl32 x n : n <= 32 -> inw 32 x -> inw 32 (rotl 32 x n).
Proof. intros Hn Hx. rewrite <- rol_rotl by assumption. wb. Qed.
Ltac rots := repeat (apply inw_rotl32 || apply inw_rol || apply inw_lxor || apply inw_wshl || assumption || lia).
Lemma serp_lt_L x : regs 32 4 x -> serp_lt x = serpent_L x.
Proof.
  intros Hx. list_cases Hx. unfold serp_lt, serpent_L, word. cbn [nth]. cbv zeta. rewrite <- !wshl_mul.
  repeat (rewrite <- rol_rotl; [|rots|lia]).
  rewrite !N.lxor_assoc. reflexivity.
Qed.

(** The schedule *)
Lemma nth_last8 (W : list N) i j : length W = (8 + i)%nat -> nth j (skipn i W) 0 = word W (i + j).
Proof. intros L. unfold word. apply nth_skipn. Qed.
Lemma serp_words_fold n : forall i W, length W = (8 + i)%nat -> words_ok 32 W -> N.of_nat (i + n) <= 2 ^ 32 ->
  fold_left serpent_next (seq (8 + i) n) W = W ++ serp_words n (N.of_nat i) (skipn i W).
Proof.
  induction n as [|n IH]; intros i W L HW Hn; [cbn [seq fold_left serp_words]; now rewrite app_nil_r|].
  cbn [seq fold_left serp_words].
  assert (V : serpent_next W (8 + i) = W ++ [serp_next (skipn i W) (N.of_nat i)]).
  { unfold serpent_next, serp_next. rewrite !(nth_last8 W i) by exact L.
    replace (8 + i - 8)%nat with i by lia. replace (8 + i - 5)%nat with (i + 3)%nat by lia. replace (8 + i - 3)%nat with (i + 5)%nat by lia.
    replace (8 + i - 1)%nat with (i + 7)%nat by lia. rewrite Nat.add_0_r. rewrite <- rol_rotl; [reflexivity| |lia].
    assert (K : forall j, inw 32 (word W j)) by (intros; now apply words_nth).
    assert (C : inw 32 (N.of_nat i)) by (unfold inw; lia). assert (P : inw 32 golden) by reflexivity. repeat apply inw_lxor; auto. }
  rewrite V. replace (N.of_nat i + 1) with (N.of_nat (S i)) by lia.
  assert (T : tl (skipn i W) ++ [serp_next (skipn i W) (N.of_nat i)] = skipn (S i) (W ++ [serp_next (skipn i W) (N.of_nat i)])).
  { rewrite skipn_app. replace (S i - length W)%nat with 0%nat by lia. cbn [skipn]. f_equal. clear. revert i. induction W as [|a W IH]; intros [|i]; try reflexivity. cbn [skipn]. apply IH. }
  rewrite T. change (S (8 + i)) with (8 + S i)%nat. rewrite IH.
  - now rewrite <- app_assoc.
  - rewrite app_length. cbn [length]. lia.
  - apply Forall_app. split; [exact HW|]. constructor; [|constructor].
    destruct (serp_words_ok 1 (N.of_nat i) (skipn i W)) as [Q _]; [now apply words_skipn|lia|]. now inversion Q.
  - rewrite <- Hn. lia.
Qed.
Lemma serp_words_app n m : forall c w, length w = 8%nat ->
  serp_words (n + m) c w = serp_words n c w ++ serp_words m (c + N.of_nat n) (skipn n (w ++ serp_words n c w)).
Proof.
  induction n as [|n IH]; intros c w L; [cbn [Nat.add serp_words app skipn]; now rewrite app_nil_r, N.add_0_r|].
  cbn [Nat.add serp_words]. cbn [app]. f_equal.
  assert (L' : length (tl w ++ [serp_next w c]) = 8%nat) by (rewrite app_length; destruct w; cbn in *; lia).
  rewrite IH by exact L'. f_equal. f_equal; [lia|]. destruct w as [|a w]; [discriminate L|]. cbn [tl app skipn]. now rewrite <- app_assoc.
Qed.
Lemma length_serp_words n : forall c w, length (serp_words n c w) = n.
Proof. induction n as [|n IH]; intros c w; cbn [serp_words length]; [reflexivity|now rewrite IH]. Qed.

(** The padded key *)
Lemma le_words_upd l p i : length l = 32%nat -> bytes_ok l -> (p < 32)%nat -> nth p l 0 = 0 -> (i < 8)%nat ->
  nth i (le_words 4 8 (upd l p 1)) 0 =
  if Nat.eqb i (p / 4) then N.lor (nth i (le_words 4 8 l) 0) (N.shiftl 1 (N.of_nat (8 * (p mod 4)))) else nth i (le_words 4 8 l) 0.
Proof.
  intros L B Hp Z Hi. rewrite !nth_le_words by exact Hi. rewrite !slice_nth by (rewrite ?length_upd; lia). cbn [seq map].
  assert (Bi : forall j, nth j l 0 < 256) by (intros; now apply bytes_nth).
  assert (P : p = (4 * (p / 4) + p mod 4)%nat) by (apply Nat.div_mod_eq).
  pose proof (Nat.mod_upper_bound p 4 ltac:(discriminate)) as M.
  destruct (Nat.eqb_spec i (p / 4)) as [->|D].
  - set (q := (p / 4)%nat) in *. set (r := (p mod 4)%nat) in *. clearbody q r.
    assert (C : (r = 0 \/ r = 1 \/ r = 2 \/ r = 3)%nat) by lia.
    assert (G : forall a n, N.testbit a n = false -> N.lor a (N.shiftl 1 n) = a + 2 ^ n).
    { intros a n Hn. rewrite N.shiftl_1_l.
      assert (D : N.land a (2 ^ n) = 0).
      { apply N.bits_inj. intros k. rewrite N.land_spec, N.pow2_bits_eqb, N.bits_0.
        destruct (N.eqb_spec n k) as [<-|]; [now rewrite Hn|apply andb_false_r]. }
      rewrite N.add_nocarry_lxor by exact D. now apply lor_disjoint. }
    assert (T : forall a n lo hi, a = lo + (2 * hi) * 2 ^ n -> lo < 2 ^ n -> N.testbit a n = false).
    { intros a n lo hi -> H. pose proof (N.testbit_spec' (lo + 2 * hi * 2 ^ n) n) as S'.
      rewrite N.div_add, N.div_small, N.add_0_l in S' by lia. rewrite (N.mul_comm 2 hi), N.mod_mul in S' by discriminate.
      rewrite (N.mul_comm 2 hi). destruct (N.testbit _ n); [discriminate S'|reflexivity]. }
    pose proof (Bi (4 * q + 0)%nat). pose proof (Bi (4 * q + 1)%nat). pose proof (Bi (4 * q + 2)%nat). pose proof (Bi (4 * q + 3)%nat).
    destruct C as [-> | [-> | [-> | ->]]]; rewrite P in Z |- *; rewrite nth_upd_eq by lia; rewrite !nth_upd_neq by lia; rewrite Z; cbn [le_val].
    + rewrite (G _ (N.of_nat (8 * 0))); [change (2 ^ N.of_nat (8 * 0)) with 1; lia|].
      apply (T _ _ 0 (128 * (nth (4 * q + 1) l 0 + 256 * (nth (4 * q + 2) l 0 + 256 * nth (4 * q + 3) l 0)))); change (2 ^ N.of_nat (8 * 0)) with 1; lia.
    + rewrite (G _ (N.of_nat (8 * 1))); [change (2 ^ N.of_nat (8 * 1)) with 256; lia|].
      apply (T _ _ (nth (4 * q + 0) l 0) (128 * (nth (4 * q + 2) l 0 + 256 * nth (4 * q + 3) l 0))); change (2 ^ N.of_nat (8 * 1)) with 256; lia.
    + rewrite (G _ (N.of_nat (8 * 2))); [change (2 ^ N.of_nat (8 * 2)) with 65536; lia|].
      apply (T _ _ (nth (4 * q + 0) l 0 + 256 * nth (4 * q + 1) l 0) (128 * nth (4 * q + 3) l 0)); change (2 ^ N.of_nat (8 * 2)) with 65536; lia.
    + rewrite (G _ (N.of_nat (8 * 3))); [change (2 ^ N.of_nat (8 * 3)) with 16777216; lia|].
      apply (T _ _ (nth (4 * q + 0) l 0 + 256 * (nth (4 * q + 1) l 0 + 256 * nth (4 * q + 2) l 0)) 0); change (2 ^ N.of_nat (8 * 3)) with 16777216; lia.
  - rewrite !nth_upd_neq by lia. reflexivity.
Qed.

Lemma zero_pad_one key : (length key < 32)%nat -> zero_pad 32 (key ++ [1]) = upd (zero_pad 32 key) (length key) 1.
Proof.
  intros H. unfold zero_pad. rewrite app_length. cbn [length]. replace (32 - length key)%nat with (S (32 - (length key + 1))) by lia.
  rewrite <- app_assoc. cbn [app repeat]. clear H. generalize (32 - (length key + 1))%nat as m. intros m.
  induction key as [|a key IH]; cbn [app length upd]; [reflexivity|]. now rewrite IH.
Qed.
Lemma serp_key_words key : bytes_ok key -> (length key <= 32)%nat ->
  serp_key key = le_words 4 8 (if Nat.ltb (length key) 32 then zero_pad 32 (key ++ [1]) else key).
Proof.
  intros B L. unfold serp_key. cbv zeta. rewrite key32l_words by (auto; lia). change (4 * 8)%nat with 32%nat.
  destruct (Nat.ltb_spec (length key) 32) as [H|H].
  - rewrite zero_pad_one by exact H. set (l := zero_pad 32 key). assert (Ll : length l = 32%nat) by (apply length_zero_pad; lia).
    apply nth_eq_dec_ext; [now rewrite length_upd, !length_le_words|]. intros i.
    destruct (Nat.lt_ge_cases i 8) as [Hi|Hi].
    + rewrite le_words_upd; auto.
      * destruct (Nat.eqb_spec i (length key / 4)) as [->|D]; [now rewrite nth_upd_eq by (rewrite length_le_words; exact Hi)|].
        now rewrite nth_upd_neq by congruence.
      * now apply bytes_zero_pad.
      * unfold l, zero_pad. rewrite app_nth2, Nat.sub_diag by lia. apply nth_repeat0.
    + rewrite !nth_overflow; [reflexivity| |]; rewrite ?length_upd, length_le_words; exact Hi.
  - now rewrite zero_pad_full by exact H.
Qed.
Lemma serp_prekeys_eq r n key : N.to_nat r = n -> (1 <= n)%nat -> r < 2 ^ 28 -> bytes_ok key -> (length key <= 32)%nat ->
  serpent_prekeys_any n key = serp_key key ++ serp_prekeys r key.
Proof.
  intros Hn H1 Hr B L. unfold serpent_prekeys_any. cbv zeta. rewrite <- serp_key_words by assumption. unfold serp_prekeys. cbv zeta.
  assert (L8 : length (serp_key key) = 8%nat) by (rewrite serp_key_words by assumption; apply length_le_words).
  pose proof (serp_words_fold (4 * (n + 1)) 0 (serp_key key) L8 (serp_key_ok key B)) as E. change (8 + 0)%nat with 8%nat in E. rewrite skipn_O in E.
  rewrite E by (change (2 ^ 28) with 268435456 in Hr; change (2 ^ 32) with 4294967296; lia).
  replace (4 * N.to_nat (r + 1) - 8)%nat with (4 * (n + 1) - 8)%nat by lia.
  replace (4 * (n + 1))%nat with (8 + (4 * (n + 1) - 8))%nat at 1 by lia. rewrite serp_words_app by exact L8.
  rewrite skipn_app, L8, Nat.sub_diag, (skipn_all2 (serp_key key)) by lia. reflexivity.
Qed.

(** The rounds, for any schedule *)
Lemma serp_xor_list ks i x : length x = 4%nat -> (i + 4 <= length ks)%nat -> serp_xor ks i x = xor_list x (slice i 4 ks).
Proof.
  intros Lx Li. rewrite slice_nth by exact Li. cbn [seq map]. rewrite Nat.add_0_r. destruct x as [|a [|b [|c [|d [|]]]]]; try discriminate Lx. reflexivity.
Qed.
Definition serp_half (K : nat -> list N) (x : list N) (i : nat) : list N := serpent_S i (xor_list x (K i)).
Definition serp_full (K : nat -> list N) (x : list N) (i : nat) : list N := serpent_L (serp_half K x i).
Lemma serp_half_eq ks K g b x : words_ok 32 ks -> (b < 8)%nat -> (32 * g + 4 * b + 4 <= length ks)%nat -> regs 32 4 x ->
  slice (4 * (8 * g + b)) 4 ks = K (8 * g + b)%nat ->
  serp_s b (serp_xor ks (32 * g + 4 * b) x) = serp_half K x (8 * g + b) /\ regs 32 4 (serp_half K x (8 * g + b)).
Proof.
  intros W Hb Hl Hx E. split; [|apply serpent_S_regs].
  rewrite serp_s_S; [|exact Hb|now apply (proj1 (serp_xor_pbij ks _ W) x Hx)].
  rewrite serp_xor_list; [|apply Hx|exact Hl]. unfold serp_half. rewrite <- E.
  replace (4 * (8 * g + b))%nat with (32 * g + 4 * b)%nat by lia.
  rewrite <- serpent_S_mod, <- (serpent_S_mod (8 * g + b)). f_equal. rewrite Nat.add_comm, Nat.mul_comm, Nat.mod_add by discriminate. reflexivity.
Qed.
Lemma serp_L_regs x : regs 32 4 x -> regs 32 4 (serpent_L x).
Proof. intros Hx. rewrite <- serp_lt_L by exact Hx. now apply (proj1 serp_lt_pbij x Hx). Qed.
Lemma serp_ppass_eq ks K g x : words_ok 32 ks -> (32 * g + 32 <= length ks)%nat -> regs 32 4 x ->
  (forall b, (b < 8)%nat -> slice (4 * (8 * g + b)) 4 ks = K (8 * g + b)%nat) ->
  exists y, regs 32 4 y /\ fold_left (serp_full K) (seq (8 * g) 7) x = y /\ serp_ppass ks g x = serp_half K y (8 * g + 7).
Proof.
  intros W Hl Hx E. eexists. split; [|split; [reflexivity|]].
  - replace (seq (8 * g) 7) with (map (fun b => (8 * g + b)%nat) (seq 0 7)) by (cbn [seq map]; repeat (f_equal; try lia)).
    rewrite fold_left_map. assert (G : forall l y, regs 32 4 y -> regs 32 4 (fold_left (fun x b => serp_full K x (8 * g + b)) l y)).
    { induction l as [|b l IH]; intros y Hy; cbn [fold_left]; [exact Hy|]. apply IH. apply serp_L_regs, serpent_S_regs. }
    now apply G.
  - unfold serp_ppass. rewrite (pfor_S 7).
    pose proof (pfor_fold (fun _ u v => u = v /\ regs 32 4 u) 7 0
      (fun b x => if Nat.ltb (S b) 8 then serp_lt (serp_s b (serp_xor ks (32 * g + 4 * b) x)) else serp_s b (serp_xor ks (32 * g + 4 * b) x))
      (fun x b => serp_full K x (8 * g + b)) x x) as F.
    cbv beta in F. destruct F as [F1 F2].
    + intros t y u Ht [<- Hy]. destruct (serp_half_eq ks K g t y W ltac:(lia) ltac:(lia) Hy (E t ltac:(lia))) as [Q Rg].
      rewrite (proj2 (Nat.ltb_lt (S t) 8)) by lia. rewrite Q. unfold serp_full. rewrite serp_lt_L by exact Rg. split; [reflexivity|now apply serp_L_regs].
    + now split.
    + set (z := pfor 7 0 _ x) in *. clearbody z. change (Nat.ltb (S (0 + 7)) 8) with false. cbv iota. change (0 + 7)%nat with 7%nat.
      destruct (serp_half_eq ks K g 7 z W ltac:(lia) ltac:(lia) F2 (E 7%nat ltac:(lia))) as [Q _]. rewrite Q. f_equal. rewrite F1.
      replace (seq (8 * g) 7) with (map (fun b => (8 * g + b)%nat) (seq 0 7)) by (cbn [seq map]; repeat (f_equal; try lia)).
      now rewrite fold_left_map.
Qed.
Lemma serp_enc_eq r m ks K x : serp_passes r = S m -> N.to_nat r = (8 * S m)%nat -> words_ok 32 ks -> length ks = (4 * (8 * S m + 1))%nat -> regs 32 4 x ->
  (forall i, (i <= 8 * S m)%nat -> slice (4 * i) 4 ks = K i) ->
  serp_enc_words {| serp_r := r; serp_k := ks |} x =
  Ok (xor_list (serpent_S (8 * m + 7) (xor_list (fold_left (serp_full K) (seq 0 (8 * m + 7)) x) (K (8 * m + 7)%nat))) (K (8 * S m)%nat)).
Proof.
  intros Hp Hr W L Hx E. unfold serp_enc_words. cbn [serp_r serp_k]. cbv zeta. rewrite Hp.
  destruct (mfor_fold (fun _ u v => u = v /\ regs 32 4 u) m 0 
    (fun g x => let* x := serp_pass ks g x in Ok (if Nat.ltb (S g) (S m) then serp_lt x else x))
    (fun x g => fold_left (serp_full K) (seq (8 * g) 8) x) x x) as (z & Ez & F1 & F2).
  { intros t y u Ht [<- Hy]. rewrite serp_pass_pure by lia. cbn [bind]. eexists. split; [reflexivity|].
    destruct (serp_ppass_eq ks K t y W ltac:(lia) Hy) as (v & Hv & Fv & Q); [intros; apply E; lia|].
    rewrite Q. rewrite (proj2 (Nat.ltb_lt (S t) (S m))) by lia. rewrite serp_lt_L by apply serpent_S_regs.
    split; [|apply serp_L_regs, serpent_S_regs].
    change 8%nat with (7 + 1)%nat at 3. rewrite seq_app, fold_left_app, Fv. cbn [seq fold_left]. reflexivity. }
  { now split. }
  replace (mfor (S m) 0) with (@mfor (list N) (m + 1) 0) by (f_equal; lia). rewrite mfor_app, Ez. cbn [bind mfor].
  rewrite serp_pass_pure by lia. cbn [bind].
  destruct (serp_ppass_eq ks K m z W ltac:(lia) F2) as (v & Hv & Fv & Q); [intros; apply E; lia|].
  change (0 + m)%nat with m. rewrite Q. rewrite (proj2 (Nat.ltb_ge (S m) (S m))) by lia. cbn [bind].
  rewrite serp_add_xor by lia. apply f_equal. rewrite serp_xor_list; [|apply serpent_S_regs|lia].
  replace (32 * S m)%nat with (4 * (8 * S m))%nat by lia. rewrite E by lia. apply (f_equal (fun t => xor_list t (K (8 * S m)%nat))).
  unfold serp_half. apply (f_equal (fun t => serpent_S (8 * m + 7) (xor_list t (K (8 * m + 7)%nat)))).
  rewrite seq_app, fold_left_app. pose proof (fold_groups (serp_full K) 8 m 0 x) as FG. change (8 * 0)%nat with 0%nat in FG. rewrite FG, <- F1. now symmetry.
Qed.

Lemma serpent_create_inv key s : serpent_create 0 key = Ok s -> s = serp_setup 32 key.
Proof.
  intros Es. unfold serpent_create in Es. apply assert_inv in Es. destruct Es as [_ Es]. cbv zeta in Es. apply fits_inv in Es. destruct Es as [_ Es].
  apply Ok_inj in Es. now symmetry.
Qed.
Lemma serp_setup_slice r n m key i : N.to_nat r = n -> serp_passes r = m -> (8 * m = n)%nat -> (1 <= n)%nat -> r < 2 ^ 28 -> bytes_ok key -> (length key <= 32)%nat -> (i <= n)%nat ->
  slice (4 * i) 4 (serp_k (serp_setup r key)) = serpent_key_any (serpent_prekeys_any n key) i.
Proof.
  intros Hn Hm Hmn H1 Hr B L Hi. unfold serp_setup. cbn [serp_k]. cbv zeta. rewrite Hm.
  assert (W : words_ok 32 (serp_prekeys r key)) by (apply serp_prekeys_ok; [exact B|exact Hr]).
  assert (L8 : length (serp_key key) = 8%nat) by (rewrite serp_key_words by assumption; apply length_le_words).
  assert (Lw : length (serp_prekeys r key) = (4 * (n + 1))%nat) by (unfold serp_prekeys; cbv zeta; rewrite app_length, !length_serp_words; lia).
  rewrite (serp_prekeys_eq r n key Hn H1 Hr B L). unfold serpent_key_any. set (w := serp_prekeys r key) in *. clearbody w. set (k := serp_key key) in *. clearbody k.
  rewrite slice_flat_map; [|intros j; apply (serp_ks_ok (j mod 8) (slice (4 * j) 4 w)); now apply words_slice|lia].
  change (0 + i)%nat with i. rewrite serp_ks_S; [|split; [rewrite length_slice; lia|now apply words_slice]].
  apply f_equal. unfold slice. rewrite skipn_app, L8. rewrite (skipn_all2 k) by lia. cbn [app]. f_equal. f_equal. lia.
Qed.
Lemma serp_setup_eta r key : serp_setup r key = {| serp_r := r; serp_k := serp_k (serp_setup r key) |}.
Proof. reflexivity. Qed.
Lemma serpent_any_enc r m n key pt : N.to_nat r = n -> serp_passes r = S m -> (8 * S m = n)%nat -> r < 2 ^ 28 -> bytes_ok key -> (length key <= 32)%nat -> blk 16 pt ->
  serpent_encrypt (serp_setup r key) pt = Ok (serpent_any n key pt).
Proof.
  intros Hn Hm Hmn Hr Hb Hk Hp. unfold serpent_encrypt, serpent_any. cbv zeta. destruct Hp as [Lp Bp].
  rewrite loads32l_le by (auto; lia). rewrite (zero_pad_full (4 * 4) pt) by lia.
  destruct (serp_setup_ok r key (S m) Hb Hr Hm) as [W L].
  assert (Hx : regs 32 4 (le_words 4 4 pt)) by now apply le_words_regs.
  assert (Hs : forall i, (i <= 8 * S m)%nat -> slice (4 * i) 4 (serp_k (serp_setup r key)) = serpent_key_any (serpent_prekeys_any n key) i).
  { intros i Hi. apply (serp_setup_slice r n (S m)); auto; lia. }
  pose proof (serp_enc_eq r m _ _ _ Hm ltac:(lia) W L Hx Hs) as E. rewrite serp_setup_eta, E.
  cbn [bind]. rewrite stores32l_le. rewrite <- Hmn. replace (8 * S m - 1)%nat with (8 * m + 7)%nat by lia. reflexivity.
Qed.
Lemma serpent_key_same w i : (i <= 32)%nat -> serpent_key_any w i = serpent_key w i.
Proof.
  intros Hi. unfold serpent_key_any, serpent_key. generalize (slice (8 + 4 * i) 4 w). intros x.
  rewrite <- serpent_S_mod, <- (serpent_S_mod (35 - i)). f_equal. do 33 (destruct i as [|i]; [reflexivity|]). lia.
Qed.
Lemma serpent_any_32 key pt : serpent_any 32 key pt = serpent_cipher key pt.
Proof.
  assert (P : serpent_prekeys_any 32 key = serpent_prekeys key).
  { unfold serpent_prekeys_any, serpent_prekeys. cbv zeta. replace (seq 8 (4 * (32 + 1))) with (seq 8 132) by reflexivity. generalize (seq 8 132). intros l. reflexivity. }
  unfold serpent_any, serpent_cipher. cbv zeta. rewrite P. generalize (serpent_prekeys key). intros w. clear P.
  change (32 - 1)%nat with 31%nat. rewrite !serpent_key_same by lia.
  assert (G : forall n i x, (i + n <= 33)%nat -> fold_left (fun x i => serpent_L (serpent_S i (xor_list x (serpent_key_any w i)))) (seq i n) x = fold_left (serpent_round w) (seq i n) x).
  { induction n as [|n IH]; intros i x Hi; [reflexivity|]. cbn [seq fold_left]. rewrite IH by lia. f_equal. unfold serpent_round. now rewrite serpent_key_same by lia. }
  rewrite G by lia. reflexivity.
Qed.
Lemma serpent_published : is_cipher serpent_desc (up_to 32) serpent_cipher.
Proof.
  apply (is_cipher_default _ _ _ serpent_default); [intros key Hk; exact Hk|].
  intros key s Hb Hk Es pt Hp. apply serpent_create_inv in Es. subst s. unfold up_to in Hk. rewrite <- serpent_any_32.
  change (bc_enc serpent_desc) with serpent_encrypt. apply (serpent_any_enc 32 3); [reflexivity|reflexivity|reflexivity|reflexivity|exact Hb|exact (proj2 Hk)|exact Hp].
Qed.
