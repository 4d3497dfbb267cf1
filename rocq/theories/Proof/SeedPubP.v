(** SEED is the cipher of RFC 4269. *)
From Coq Require Import NArith Arith List Bool Lia.
From Verif Require Import Lib.Word Lib.Res Lib.Bytes Lib.Bits Lib.Lists Lib.BlockLemmas Lib.Lin Lib.WordSpec Lib.WordsP Lib.XorSolve
  Spec.Words Spec.Block Spec.Arx Spec.Gf Spec.Affine Spec.Pub1 Spec.Rounds Model.LoadStore Model.BlockApi Model.Table Model.Seed Model.Ciphers
  Proof.LoadStoreP Proof.Sha1P Proof.ArxP Proof.LeaPubP Proof.PubLib Proof.TableP Proof.SeedP Proof.RekeyP Proof.CiphersP.
Import ListNotations.
Local Open Scope N_scope.

Definition seed_col (S : N -> N) (j : nat) (b : N) : N := le_val (map (fun i => N.land (S b) (word seed_m ((i + j) mod 4))) (seq 0 4)).
Lemma seed_s0_table : is_table seed_s0 (seed_col seed_S1 0) = true. Proof. vm_compute. reflexivity. Qed.
Lemma seed_s1_table : is_table seed_s1 (seed_col seed_S2 1) = true. Proof. vm_compute. reflexivity. Qed.
Lemma seed_s2_table : is_table seed_s2 (seed_col seed_S1 2) = true. Proof. vm_compute. reflexivity. Qed.
Lemma seed_s3_table : is_table seed_s3 (seed_col seed_S2 3) = true. Proof. vm_compute. reflexivity. Qed.

Lemma le4_be a b c d : le_val [a; b; c; d] = be_val [d; c; b; a]. Proof. reflexivity. Qed.
Lemma lxor_byte a b : a < 256 -> b < 256 -> N.lxor a b < 256.
Proof. intros Ha Hb. exact (inw_lxor 8 a b Ha Hb). Qed.
Lemma land_byte a b : b < 256 -> N.land a b < 256.
Proof.
  intros Hb. exact (inw_land_r 8 a b Hb).
Qed.
Lemma le4_lxor a b c d e f g h : a < 256 -> b < 256 -> c < 256 -> d < 256 -> e < 256 -> f < 256 -> g < 256 -> h < 256 ->
  le_val [N.lxor a e; N.lxor b f; N.lxor c g; N.lxor d h] = N.lxor (le_val [a; b; c; d]) (le_val [e; f; g; h]).
Proof.
  intros. rewrite !le4_be, !be4_shifts by (auto using lxor_byte). rewrite !wshl_lxor. xor_solve.
Qed.
Lemma seed_cols y0 y1 y2 y3 :
  N.lxor (N.lxor (N.lxor (le_val [N.land y0 0xFC; N.land y0 0xF3; N.land y0 0xCF; N.land y0 0x3F])
                         (le_val [N.land y1 0xF3; N.land y1 0xCF; N.land y1 0x3F; N.land y1 0xFC]))
                 (le_val [N.land y2 0xCF; N.land y2 0x3F; N.land y2 0xFC; N.land y2 0xF3]))
         (le_val [N.land y3 0x3F; N.land y3 0xFC; N.land y3 0xF3; N.land y3 0xCF]) =
  le_val [N.lxor (N.lxor (N.lxor (N.lxor 0 (N.land y0 0xFC)) (N.land y1 0xF3)) (N.land y2 0xCF)) (N.land y3 0x3F);
          N.lxor (N.lxor (N.lxor (N.lxor 0 (N.land y0 0xF3)) (N.land y1 0xCF)) (N.land y2 0x3F)) (N.land y3 0xFC);
          N.lxor (N.lxor (N.lxor (N.lxor 0 (N.land y0 0xCF)) (N.land y1 0x3F)) (N.land y2 0xFC)) (N.land y3 0xF3);
          N.lxor (N.lxor (N.lxor (N.lxor 0 (N.land y0 0x3F)) (N.land y1 0xFC)) (N.land y2 0xF3)) (N.land y3 0xCF)].
Proof.
  assert (B : 0xFC < 256 /\ 0xF3 < 256 /\ 0xCF < 256 /\ 0x3F < 256) by (repeat split). destruct B as (B1 & B2 & B3 & B4).
  rewrite !N.lxor_0_l. rewrite !le4_lxor by (auto 8 using lxor_byte, land_byte). reflexivity.
Qed.
Lemma seed_f_G x : seed_f x = seed_G x.
Proof.
  unfold seed_f. rewrite (tab8_fun _ _ _ seed_s0_table), (tab8_fun _ _ _ seed_s1_table), (tab8_fun _ _ _ seed_s2_table), (tab8_fun _ _ _ seed_s3_table).
  unfold seed_G. cbv zeta.
  assert (E : le_bytes 4 x = [byte x; byte (wshr x 8); byte (wshr x 16); byte (wshr x 24)]).
  { rewrite <- (rev_involutive (le_bytes 4 x)). change (rev (le_bytes 4 x)) with (be_bytes 4 x). now rewrite be4. }
  rewrite E. unfold seed_col.
  change (word [byte x; byte (wshr x 8); byte (wshr x 16); byte (wshr x 24)] 0) with (byte x).
  change (word [byte x; byte (wshr x 8); byte (wshr x 16); byte (wshr x 24)] 1) with (byte (wshr x 8)).
  change (word [byte x; byte (wshr x 8); byte (wshr x 16); byte (wshr x 24)] 2) with (byte (wshr x 16)).
  change (word [byte x; byte (wshr x 8); byte (wshr x 16); byte (wshr x 24)] 3) with (byte (wshr x 24)).
  generalize (seed_S1 (byte x)) as y0, (seed_S2 (byte (wshr x 8))) as y1, (seed_S1 (byte (wshr x 16))) as y2, (seed_S2 (byte (wshr x 24))) as y3.
  intros y0 y1 y2 y3. exact (seed_cols y0 y1 y2 y3).
Qed.

(** rotations of two words *)
Definition cat (a b : N) : N := a * 2 ^ 32 + b.
Lemma cat_hi a b : inw 32 b -> cat a b / 2 ^ 32 = a.
Proof. intros H. unfold cat. rewrite N.div_add_l by discriminate. rewrite N.div_small by exact H. apply N.add_0_r. Qed.
Lemma cat_lo a b : inw 32 b -> cat a b mod 2 ^ 32 = b.
Proof. intros H. unfold cat. rewrite N.add_comm, N.mod_add by discriminate. now apply N.mod_small. Qed.
Lemma rotr_cat a b : inw 32 a -> inw 32 b ->
  rotr 64 (cat a b) 8 = cat (N.lor (wshr a 8) (wshl 32 b 24)) (N.lor (wshr b 8) (wshl 32 a 24)).
Proof.
  intros Ha Hb. rewrite !wshl_split by lia. change (32 - 24) with 8. unfold inw in *. change (2 ^ 32) with (2 ^ 24 * 2 ^ 8) in Ha, Hb.
  assert (L : forall x y, x < 2 ^ 24 * 2 ^ 8 -> N.lor (wshr x 8) (y * 2 ^ 24) = x / 2 ^ 8 + y * 2 ^ 24).
  { intros x y Hx. rewrite <- N.shiftl_mul_pow2, lor_add; [now rewrite wshr_div, N.shiftl_mul_pow2|]. rewrite wshr_div. apply N.div_lt_upper_bound; [discriminate|]. now rewrite N.mul_comm. }
  rewrite !L by assumption. unfold rotr, cat. change (64 - 8) with 56.
  pose proof (N.div_mod a (2 ^ 8) ltac:(discriminate)) as Da. pose proof (N.div_mod b (2 ^ 8) ltac:(discriminate)) as Db.
  pose proof (N.mod_lt a (2 ^ 8) ltac:(discriminate)) as Ma. pose proof (N.mod_lt b (2 ^ 8) ltac:(discriminate)) as Mb.
  set (ah := a / 2 ^ 8) in *. set (al := a mod 2 ^ 8) in *. set (bh := b / 2 ^ 8) in *. set (bl := b mod 2 ^ 8) in *. clearbody ah al bh bl. subst a b.
  assert (E1 : ((2 ^ 8 * ah + al) * 2 ^ 32 + (2 ^ 8 * bh + bl)) / 2 ^ 8 = (2 ^ 8 * ah + al) * 2 ^ 24 + bh).
  { symmetry. apply (N.div_unique _ _ _ bl); [exact Mb|]. change (2 ^ 32) with (2 ^ 8 * 2 ^ 24). ring. }
  assert (E2 : (((2 ^ 8 * ah + al) * 2 ^ 32 + (2 ^ 8 * bh + bl)) * 2 ^ 56) mod 2 ^ 64 = bl * 2 ^ 56).
  { symmetry. apply (N.mod_unique _ _ ((2 ^ 8 * ah + al) * 2 ^ 24 + bh)).
    - change (2 ^ 64) with (2 ^ 8 * 2 ^ 56). apply N.mul_lt_mono_pos_r; [reflexivity|exact Mb].
    - change (2 ^ 64) with (2 ^ 8 * 2 ^ 56). change (2 ^ 32) with (2 ^ 8 * 2 ^ 24). ring. }
  rewrite E1, E2. change (2 ^ 56) with (2 ^ 24 * 2 ^ 32). change (2 ^ 32) with (2 ^ 8 * 2 ^ 24). ring.
Qed.
Lemma rotl_cat a b : inw 32 a -> inw 32 b ->
  rotl 64 (cat a b) 8 = cat (N.lor (wshl 32 a 8) (wshr b 24)) (N.lor (wshl 32 b 8) (wshr a 24)).
Proof.
  intros Ha Hb. rewrite !wshl_split by lia. change (32 - 8) with 24. unfold inw in *. change (2 ^ 32) with (2 ^ 8 * 2 ^ 24) in Ha, Hb.
  assert (L : forall x y, x < 2 ^ 8 * 2 ^ 24 -> N.lor (y * 2 ^ 8) (wshr x 24) = x / 2 ^ 24 + y * 2 ^ 8).
  { intros x y Hx. rewrite N.lor_comm, <- N.shiftl_mul_pow2, lor_add; [now rewrite wshr_div, N.shiftl_mul_pow2|]. rewrite wshr_div. apply N.div_lt_upper_bound; [discriminate|]. now rewrite N.mul_comm. }
  rewrite !L by assumption. unfold rotl, cat. change (64 - 8) with 56.
  pose proof (N.div_mod a (2 ^ 24) ltac:(discriminate)) as Da. pose proof (N.div_mod b (2 ^ 24) ltac:(discriminate)) as Db.
  pose proof (N.mod_lt a (2 ^ 24) ltac:(discriminate)) as Ma. pose proof (N.mod_lt b (2 ^ 24) ltac:(discriminate)) as Mb.
  set (ah := a / 2 ^ 24) in *. set (al := a mod 2 ^ 24) in *. set (bh := b / 2 ^ 24) in *. set (bl := b mod 2 ^ 24) in *. clearbody ah al bh bl. subst a b.
  assert (E1 : ((2 ^ 24 * ah + al) * 2 ^ 32 + (2 ^ 24 * bh + bl)) / 2 ^ 56 = ah).
  { symmetry. apply (N.div_unique _ _ _ (al * 2 ^ 32 + (2 ^ 24 * bh + bl))).
    - change (2 ^ 56) with (2 ^ 24 * 2 ^ 32). change (2 ^ 8 * 2 ^ 24) with (2 ^ 32) in Hb. nia.
    - change (2 ^ 56) with (2 ^ 24 * 2 ^ 32). ring. }
  assert (E2 : (((2 ^ 24 * ah + al) * 2 ^ 32 + (2 ^ 24 * bh + bl)) * 2 ^ 8) mod 2 ^ 64 = al * 2 ^ 40 + bh * 2 ^ 32 + bl * 2 ^ 8).
  { symmetry. apply (N.mod_unique _ _ ah).
    - change (2 ^ 64) with (2 ^ 24 * 2 ^ 40). change (2 ^ 40) with (2 ^ 8 * 2 ^ 32). change (2 ^ 8 * 2 ^ 24) with (2 ^ 32) in Hb. change (2 ^ 32) with (2 ^ 24 * 2 ^ 8) in *. nia.
    - change (2 ^ 64) with (2 ^ 24 * 2 ^ 40). change (2 ^ 40) with (2 ^ 8 * 2 ^ 32). change (2 ^ 32) with (2 ^ 24 * 2 ^ 8). ring. }
  rewrite E1, E2. change (2 ^ 40) with (2 ^ 8 * 2 ^ 32). ring.
Qed.
Lemma seed_kc_next i : rol 32 (seed_KC i) 1 = seed_KC (S i).
Proof.
  assert (C : forallb (fun i => rol 32 (seed_KC i) 1 =? seed_KC (S i)) (seq 0 32) = true) by (vm_compute; reflexivity).
  assert (E : seed_KC i = seed_KC (i mod 32)) by (unfold seed_KC; now rewrite Nat.mod_mod by discriminate).
  assert (E2 : seed_KC (S i) = seed_KC (S (i mod 32))).
  { assert (M : ((1 + i) mod 32 = (1 + i mod 32) mod 32)%nat) by (now rewrite Nat.add_mod_idemp_r by discriminate). change (1 + i)%nat with (S i) in M. change (1 + i mod 32)%nat with (S (i mod 32)) in M.
    unfold seed_KC. now rewrite M. }
  rewrite E, E2. rewrite forallb_forall in C. apply N.eqb_eq, C, in_seq. pose proof (Nat.mod_upper_bound i 32 ltac:(discriminate)). lia.
Qed.
Definition flat2 (l : list (N * N)) : list N := flat_map (fun p => [fst p; snd p]) l.
Lemma wsub_minus x y : inw 32 x -> inw 32 y -> wsub 32 x y = minus32 x y.
Proof. intros Hx Hy. unfold wsub, minus32. rewrite (mask_id 32 y Hy). apply mask_mod. Qed.
Definition seed_R (i : nat) (y : list N * (N * N * N * N) * N) (u : N * N * list (N * N)) : Prop :=
  let '(ks, (k0, k1, k2, k3), kc) := y in
  ks = flat2 (snd u) /\ length (snd u) = i /\ @w4 32 (k0, k1, k2, k3) /\ fst u = (cat k0 k1, cat k2 k3) /\ kc = seed_KC i.
Lemma seed_step_more i y u : seed_R i y u -> seed_R (S i) (seed_step i y) (seed_more u i).
Proof.
  destruct y as [[ks [[[k0 k1] k2] k3]] kc]. destruct u as [[AB CD] kss]. intros (Ek & El & (H0 & H1 & H2 & H3) & Eu & ->).
  cbn [fst snd] in *. injection Eu as -> ->. unfold seed_step, seed_more. cbv zeta. rewrite !cat_hi, !cat_lo by assumption.
  rewrite seed_kc_next.
  assert (KCi : inw 32 (seed_KC i)).
  { assert (C : forallb (fun i => seed_KC i <? 2 ^ 32) (seq 0 32) = true) by (vm_compute; reflexivity).
    assert (E : seed_KC i = seed_KC (i mod 32)) by (unfold seed_KC; now rewrite Nat.mod_mod by discriminate).
    rewrite E. rewrite forallb_forall in C. apply N.ltb_lt, C, in_seq. pose proof (Nat.mod_upper_bound i 32 ltac:(discriminate)). lia. }
  rewrite !add32_wadd, <- !wsub_minus by (wb). rewrite !seed_f_G.
  rewrite <- Nat.negb_even. unfold seed_R.
  generalize (seed_G (wsub 32 (wadd 32 k0 k2) (seed_KC i))) as g0, (seed_G (wadd 32 (wsub 32 k1 k3) (seed_KC i))) as g1. intros g0 g1.
  assert (EF : ks ++ [g0; g1] = flat2 (kss ++ [(g0, g1)])).
  { unfold flat2 in *. rewrite flat_map_app, <- Ek. reflexivity. }
  destruct (Nat.even i); cbn [negb].
  - split; [exact EF|]. split; [cbn [snd]; rewrite app_length; cbn [length]; lia|]. split; [repeat split; wb|]. split; [|reflexivity]. cbn [fst].
    now rewrite rotr_cat by assumption.
  - split; [exact EF|]. split; [cbn [snd]; rewrite app_length; cbn [length]; lia|]. split; [repeat split; wb|]. split; [|reflexivity]. cbn [fst].
    now rewrite rotl_cat by assumption.
Qed.
Lemma be8_cat key j : bytes_ok key -> length key = 16%nat -> (j < 2)%nat ->
  word (be_words 8 2 key) j = cat (word (be_words 4 4 key) (2 * j)) (word (be_words 4 4 key) (2 * j + 1)).
Proof.
  intros B L Hj. do 16 (destruct key as [|? key]; [discriminate L|]). destruct key; [|discriminate L].
  destruct j as [|[|j]]; [| |lia]; unfold word, be_words, slice; cbn [seq map Nat.mul Nat.add firstn skipn nth]; unfold cat, be_val; cbn [rev app le_val];
  change (2 ^ 32) with (256 * (256 * (256 * 256))); ring.
Qed.
Lemma nth_flat2 l : forall i, (i < length l)%nat -> nth (2 * i) (flat2 l) 0 = fst (nth i l (0, 0)) /\ nth (2 * i + 1) (flat2 l) 0 = snd (nth i l (0, 0)).
Proof.
  induction l as [|p l IH]; intros i Hi; [cbn in Hi; lia|]. destruct i as [|i]; [split; reflexivity|].
  cbn [length] in Hi. replace (2 * S i)%nat with (S (S (2 * i))) by lia. cbn [flat2 flat_map app nth Nat.add]. apply IH. lia.
Qed.
Lemma length_flat2 l : length (flat2 l) = (2 * length l)%nat.
Proof. induction l as [|p l IH]; [reflexivity|]. cbn [flat2 flat_map app length]. fold (flat2 l). lia. Qed.
Lemma seed_run r n ks pt : N.to_nat r = n -> length ks = n -> blk 16 pt ->
  seed_encrypt {| seed_r := r; seed_k := flat2 ks |} pt =
  let w := be_words 4 4 pt in
  let '(L, R) := fold_left seed_feistel ks ((word w 0, word w 1), (word w 2, word w 3)) in
  Ok (be_string 4 [fst R; snd R; fst L; snd L]).
Proof.
  intros Hn Lk Hp. unfold seed_encrypt. cbn [seed_r seed_k]. rewrite Hn. cbv zeta. rewrite ld4_be32 by exact Hp.
  generalize (word (be_words 4 4 pt) 0) as a, (word (be_words 4 4 pt) 1) as b, (word (be_words 4 4 pt) 2) as c, (word (be_words 4 4 pt) 3) as d. intros a b c d.
  assert (E : map (fun i => nth i ks (0, 0)) (seq 0 n) = ks) by (apply (map_nth_seq ks n (0, 0)); symmetry; exact Lk).
  replace (fold_left seed_feistel ks (a, b, (c, d))) with (fold_left seed_feistel (map (fun i => nth i ks (0, 0)) (seq 0 n)) (a, b, (c, d))) by (now rewrite E).
  rewrite fold_left_map.
  match goal with |- context [mfor n 0 ?f ?x] => match goal with |- context [fold_left ?g (seq 0 n) ?v] =>
    destruct (mfor_fold (fun _ y u => u = (let '(a, b, c, d) := y in ((a, b), (c, d)))) n 0%nat f g x v) as (z & Ez & Hz) end end.
  - intros t [[[l0 l1] r0] r1] u Ht ->. rewrite !(get_ok (flat2 ks) _ 0) by (rewrite length_flat2; lia). cbn [bind]. eexists. split; [reflexivity|].
    destruct (nth_flat2 ks t ltac:(lia)) as [-> ->]. destruct (nth t ks (0, 0)) as [k0 k1]. unfold seed_feistel, seed_round, seed_F. cbn [fst snd]. cbv zeta.
    rewrite !add32_wadd, !seed_f_G. rewrite (N.lxor_comm (N.lxor r1 k1)). rewrite (N.lxor_comm l0), (N.lxor_comm l1). reflexivity.
  - reflexivity.
  - rewrite Ez. cbn [bind]. rewrite Hz. destruct z as [[[l0 l1] r0] r1]. unfold seed_swap. cbn [fst snd]. now rewrite st4_be32.
Qed.
Lemma seed_create_inv key s : seed_create 0 key = Ok s -> s = seed_setup 16 key.
Proof.
  intros Es. unfold seed_create in Es. apply assert_inv in Es. destruct Es as [_ Es]. cbv zeta in Es. apply fits_inv in Es. destruct Es as [_ Es].
  apply Ok_inj in Es. now symmetry.
Qed.
Lemma seed_setup_keys r n key : N.to_nat r = n -> bytes_ok key -> (length key <= 16)%nat ->
  seed_k (seed_setup r key) = flat2 (seed_keys_any n (zero_pad 16 key)) /\ length (seed_keys_any n (zero_pad 16 key)) = n.
Proof.
  intros Hn Hb Hl. unfold seed_setup, seed_keys_any. cbn [seed_k]. cbv zeta. rewrite Hn.
  rewrite (key32b_words key 4) by (auto; lia). change (4 * 4)%nat with 16%nat.
  rewrite !be8_cat by (try apply bytes_zero_pad; try apply length_zero_pad; auto).
  assert (W : forall i, inw 32 (word (be_words 4 4 (zero_pad 16 key)) i)) by (intros i; apply be_words_word with (k := 4%nat); [apply bytes_zero_pad, Hb|reflexivity]).
  set (w := be_words 4 4 (zero_pad 16 key)) in *. clearbody w. cbn [Nat.mul Nat.add].
  match goal with |- context [pfor n 0 seed_step ?x] => match goal with |- context [fold_left seed_more (seq 0 n) ?v] =>
    pose proof (pfor_fold seed_R n 0%nat seed_step seed_more x v) as G end end.
  match type of G with _ -> _ -> ?C => assert (G' : C) end.
  { apply G; [intros t y u Ht; apply seed_step_more|]. split; [reflexivity|]. split; [reflexivity|]. split; [repeat split; apply W|]. split; [reflexivity|reflexivity]. }
  clear G. unfold seed_R in G'. match type of G' with (let '(_, _) := ?p in _) => destruct p as [[ks [[[k0 k1] k2] k3]] kc] end.
  destruct G' as (-> & L & _). split; [reflexivity|exact L].
Qed.
Lemma seed_any_enc r n key pt : N.to_nat r = n -> bytes_ok key -> (length key <= 16)%nat -> blk 16 pt ->
  seed_encrypt (seed_setup r key) pt = Ok (seed_any n key pt).
Proof.
  intros Hn Hb Hk Hp. destruct (seed_setup_keys r n key Hn Hb Hk) as [E L].
  assert (S : seed_setup r key = {| seed_r := r; seed_k := flat2 (seed_keys_any n (zero_pad 16 key)) |}) by (rewrite <- E; reflexivity).
  rewrite S. unfold seed_any. etransitivity; [exact (seed_run r n _ _ Hn L Hp)|]. cbv zeta. set (ks := seed_keys_any _ _). clearbody ks.
  destruct (fold_left seed_feistel ks _) as [[l0 l1] [r0 r1]]. reflexivity.
Qed.
Lemma seed_any_16 key pt : seed_any 16 key pt = seed_cipher key pt.
Proof. unfold seed_any, seed_cipher, seed_keys_any, seed_keys. reflexivity. Qed.
Lemma seed_published : is_cipher seed_desc (up_to 16) seed_cipher.
Proof.
  apply (is_cipher_default _ _ _ seed_default); [intros key Hk; exact Hk|].
  intros key s Hb Hk Es pt Hp. apply seed_create_inv in Es. subst s.
  rewrite <- seed_any_16. change (bc_enc seed_desc) with seed_encrypt. apply seed_any_enc; [reflexivity|exact Hb|exact (proj2 Hk)|exact Hp].
Qed.
