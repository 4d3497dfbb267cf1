(** Re-keying. *)
From Coq Require Import NArith Arith List Bool Lia.
From Verif Require Import Lib.Word Lib.Res Lib.Bytes Lib.BlockLemmas Spec.Block Spec.Cipher Model.LoadStore Model.BlockApi Model.Ciphers
  Model.Tea Model.Xtea Model.Rc5 Model.Rc6 Model.Speck Model.Simon Model.Threefish Model.Lea Model.Sparx
  Model.Noekeon Model.Rectangle Model.Rc2 Model.Threeway Model.Gost Model.Idea Model.Rijndael
  Model.Seed Model.Sm4 Model.Skipjack Model.Cast5 Model.Des Model.Blowfish Model.Camellia Model.Twofish Model.Serpent Model.Shacal2 Model.Safer Model.Saferpp Model.Khazad Model.Anubis Model.Aria
  Proof.CiphersP.
Import ListNotations.
Local Open Scope N_scope.

Lemma assert_inv {A} b (k : res A) x : assert_ b k = Ok x -> b = true /\ k = Ok x.
Proof. destruct b; [now split|discriminate]. Qed.
Lemma fits_inv {A} n m (k : res A) x : fits n m k = Ok x -> (n <=? m) = true /\ k = Ok x.
Proof. unfold fits. destruct (n <=? m); [now split|discriminate]. Qed.
Lemma key_len_ok_len m k k' : length k = length k' -> key_len_ok m k = key_len_ok m k'.
Proof. unfold key_len_ok. now intros ->. Qed.

Lemma tea_rekey : rekey_any tea_desc. Proof. intros s r key. reflexivity. Qed.
Lemma noekeon_rekey : rekey_any noekeon_desc. Proof. intros s r key. reflexivity. Qed.
Lemma rc2_rekey : rekey_any rc2_desc. Proof. intros s r key. reflexivity. Qed.
Lemma threeway_rekey : rekey_any threeway_desc. Proof. intros s r key. reflexivity. Qed.
Lemma crax_rekey : rekey_any crax_desc. Proof. intros s r key. reflexivity. Qed.
Lemma skipjack_rekey : rekey_any skipjack_desc. Proof. intros s r key. reflexivity. Qed.
Lemma cast5_rekey : rekey_any cast5_desc. Proof. intros s r key. reflexivity. Qed.
Lemma des_rekey : rekey_any des_desc. Proof. intros s r key. reflexivity. Qed.
Lemma camellia_rekey : rekey_any camellia_desc. Proof. intros s r key. reflexivity. Qed.
Lemma threefish_rekey p : rekey_any (threefish_desc p). Proof. intros s r key. reflexivity. Qed.

Ltac rk :=
  intros s r key0 key H L; unfold recreate_ok; cbn [bc_recreate bc_create] in *;
  apply assert_inv in H; destruct H as [Hk H].

Lemma xtea_rekey : rekey_same xtea_desc.
Proof.
  rk. unfold xtea_desc, bc_recreate, bc_create, xtea_recreate, xtea_create in *.
  apply fits_inv in H. destruct H as [Hf H]. apply Ok_inj in H. subst s. cbn [xtea_setup xtea_rounds].
  rewrite N.eqb_refl. unfold fits. cbv zeta. now rewrite Hf.
Qed.
Lemma rc5_rekey : rekey_same rc5_desc.
Proof.
  rk. unfold rc5_desc, bc_recreate, bc_create, rc5_recreate, rc5_create in *.
  apply fits_inv in H. destruct H as [Hf H]. apply Ok_inj in H. subst s. cbn [rc5_setup rc5_r].
  rewrite N.eqb_refl. unfold fits. cbv zeta. now rewrite Hf.
Qed.
Lemma rc6_rekey : rekey_same rc6_desc.
Proof.
  rk. unfold rc6_desc, bc_recreate, bc_create, rc6_recreate, rc6_create in *.
  apply fits_inv in H. destruct H as [Hf H]. apply Ok_inj in H. subst s. cbn [rc6_setup rc6_rounds].
  rewrite N.eqb_refl. unfold fits. cbv zeta. now rewrite Hf.
Qed.
Lemma lea_rekey : rekey_same lea_desc.
Proof.
  rk. unfold lea_desc, bc_recreate, bc_create, lea_recreate, lea_create in *.
  apply fits_inv in H. destruct H as [Hf H]. apply Ok_inj in H. subst s. cbn [lea_setup lea_r].
  assert (E : lea_rounds r key = lea_rounds r key0) by (unfold lea_rounds; now rewrite L). rewrite E.
  rewrite N.eqb_refl. unfold fits. cbv zeta. now rewrite Hf.
Qed.
Lemma idea_rekey : rekey_same idea_desc.
Proof.
  rk. unfold idea_desc, bc_recreate, bc_create, idea_recreate, idea_create in *.
  apply fits_inv in H. destruct H as [Hf H]. apply Ok_inj in H. subst s. cbn [idea_setup idea_r].
  rewrite N.eqb_refl. unfold fits. cbv zeta. now rewrite Hf.
Qed.
Lemma rectangle_rekey : rekey_same rectangle_desc.
Proof.
  rk. unfold rectangle_desc, bc_recreate, bc_create, rect_recreate, rect_create in *.
  apply assert_inv in H. destruct H as [Hf H]. apply Ok_inj in H. subst s. cbn [rect_setup rect_rounds].
  now rewrite N.eqb_refl.
Qed.
Lemma gost_rekey sb : rekey_same (gost_desc sb).
Proof.
  rk. unfold gost_desc, bc_recreate, bc_create, gost_recreate, gost_create in *.
  apply fits_inv in H. destruct H as [Hf H]. apply fits_inv in H. destruct H as [Hf2 H].
  apply Ok_inj in H. subst s. cbn [gost_setup gost_r gost_s]. cbv zeta. rewrite N.eqb_refl.
  assert (E : gost_kl key = gost_kl key0) by (unfold gost_kl; now rewrite L).
  rewrite E. unfold fits. now rewrite Hf, Hf2.
Qed.
Lemma simon_rekey p : rekey_same (simon_desc p).
Proof.
  rk. unfold simon_desc, bc_recreate, bc_create, simon_recreate, simon_create in *.
  apply fits_inv in H. destruct H as [Hf H]. apply Ok_inj in H. subst s. cbn [simon_setup simon_rounds].
  assert (E : simon_r p r key = simon_r p r key0) by (unfold simon_r, simon_words; now rewrite L). rewrite E.
  assert (E2 : simon_m p key = simon_m p key0) by (unfold simon_m, simon_words; now rewrite L). rewrite E2.
  rewrite N.eqb_refl. unfold fits. cbv zeta. now rewrite Hf.
Qed.
Lemma speck_rekey p : rekey_same (speck_desc p).
Proof.
  rk. unfold speck_desc, bc_recreate, bc_create, speck_recreate, speck_create in *.
  apply fits_inv in H. destruct H as [Hf H]. unfold speck_setup in H.
  apply bind_ok in H. destruct H as ([k out] & _ & H). apply Ok_inj in H. subst s. cbn [speck_rounds].
  assert (E : speck_r p r key = speck_r p r key0) by (unfold speck_r, speck_words; now rewrite L). rewrite E.
  rewrite N.eqb_refl. unfold fits. cbv zeta. now rewrite Hf.
Qed.
Lemma rj_rekey bs min sh s r key0 key : rj_create bs min sh r key0 = Ok s -> length key = length key0 -> rj_recreate bs min s r key = rj_create bs min sh r key.
Proof.
  intros H L. unfold rj_create, rj_recreate in *. rewrite (key_len_ok_len _ key key0 L). apply assert_inv in H. destruct H as [Ha H]. rewrite Ha. cbn [assert_].
  cbv zeta in H. apply fits_inv in H. destruct H as [Hf H]. unfold rj_setup in H. apply bind_ok in H. destruct H as (k & _ & H). apply Ok_inj in H. subst s.
  cbn [rj_r]. assert (E : rj_rounds min r key = rj_rounds min r key0) by (unfold rj_rounds; now rewrite L).
  cbv zeta. rewrite E, N.eqb_refl. unfold fits. now rewrite Hf.
Qed.
Lemma rijndael128_rekey : rekey_same rijndael128_desc. Proof. intros s r key0 key. apply (rj_rekey 4 10 5). Qed.
Lemma rijndael256_rekey : rekey_same rijndael256_desc. Proof. intros s r key0 key. apply (rj_rekey 8 14 6). Qed.
Lemma trax_rekey p : rekey_same (trax_desc p).
Proof.
  rk. unfold trax_desc, bc_recreate, bc_create, trax_recreate, trax_create in *.
  apply fits_inv in H. destruct H as [Hf H]. apply Ok_inj in H. subst s. cbn [trax_setup trax_steps].
  rewrite N.eqb_refl. unfold fits. cbv zeta. now rewrite Hf.
Qed.

(** any key length *)
Ltac rkr := intros s r key0 key H; unfold recreate_ok; cbn [bc_recreate bc_create] in *; apply assert_inv in H; destruct H as [Hk H].
Lemma xtea_rekey_r : rekey_rounds xtea_desc.
Proof.
  rkr. unfold xtea_desc, bc_recreate, bc_create, xtea_recreate, xtea_create in *.
  apply fits_inv in H. destruct H as [Hf H]. apply Ok_inj in H. subst s. cbn [xtea_setup xtea_rounds].
  rewrite N.eqb_refl. unfold fits. cbv zeta. now rewrite Hf.
Qed.
Lemma rc5_rekey_r : rekey_rounds rc5_desc.
Proof.
  rkr. unfold rc5_desc, bc_recreate, bc_create, rc5_recreate, rc5_create in *.
  apply fits_inv in H. destruct H as [Hf H]. apply Ok_inj in H. subst s. cbn [rc5_setup rc5_r].
  rewrite N.eqb_refl. unfold fits. cbv zeta. now rewrite Hf.
Qed.
Lemma rc6_rekey_r : rekey_rounds rc6_desc.
Proof.
  rkr. unfold rc6_desc, bc_recreate, bc_create, rc6_recreate, rc6_create in *.
  apply fits_inv in H. destruct H as [Hf H]. apply Ok_inj in H. subst s. cbn [rc6_setup rc6_rounds].
  rewrite N.eqb_refl. unfold fits. cbv zeta. now rewrite Hf.
Qed.
Lemma idea_rekey_r : rekey_rounds idea_desc.
Proof.
  rkr. unfold idea_desc, bc_recreate, bc_create, idea_recreate, idea_create in *.
  apply fits_inv in H. destruct H as [Hf H]. apply Ok_inj in H. subst s. cbn [idea_setup idea_r].
  rewrite N.eqb_refl. unfold fits. cbv zeta. now rewrite Hf.
Qed.
Lemma rectangle_rekey_r : rekey_rounds rectangle_desc.
Proof.
  rkr. unfold rectangle_desc, bc_recreate, bc_create, rect_recreate, rect_create in *.
  apply assert_inv in H. destruct H as [Hf H]. apply Ok_inj in H. subst s. cbn [rect_setup rect_rounds].
  now rewrite N.eqb_refl.
Qed.
Lemma trax_rekey_r p : rekey_rounds (trax_desc p).
Proof.
  rkr. unfold trax_desc, bc_recreate, bc_create, trax_recreate, trax_create in *.
  apply fits_inv in H. destruct H as [Hf H]. apply Ok_inj in H. subst s. cbn [trax_setup trax_steps].
  rewrite N.eqb_refl. unfold fits. cbv zeta. now rewrite Hf.
Qed.
Lemma gost_rekey_r sb : rekey_rounds (gost_desc sb).
Proof.
  rkr. unfold gost_desc, bc_recreate, bc_create, gost_recreate, gost_create in *.
  apply fits_inv in H. destruct H as [Hf H]. apply fits_inv in H. destruct H as [Hf2 H].
  apply Ok_inj in H. subst s. cbn [gost_setup gost_r gost_s]. cbv zeta. rewrite N.eqb_refl.
  unfold fits. now rewrite Hf.
Qed.
Lemma simon32_rekey_r : rekey_rounds (simon_desc simon32).
Proof.
  rkr. unfold simon_desc, bc_recreate, bc_create, simon_recreate, simon_create in *.
  apply fits_inv in H. destruct H as [Hf H]. apply Ok_inj in H. subst s. cbn [simon_setup simon_rounds].
  assert (L : (length key <= 8)%nat -> simon_m simon32 key = 4%nat).
  { intros L. unfold simon_m, simon_words. change (si_min simon32) with 4%nat. change (si_k simon32) with 2%nat. apply Nat.max_l.
    pose proof (Nat.div_mod_eq (length key + (2 - 1)) 2). lia. }
  assert (L0 : simon_m simon32 key0 = 4%nat).
  { unfold simon_m, simon_words. change (si_min simon32) with 4%nat. change (si_k simon32) with 2%nat. apply Nat.max_l. pose proof (Nat.div_mod_eq (length key0 + (2 - 1)) 2).
    unfold key_len_ok in Hk. apply andb_true_iff in Hk. destruct Hk as [_ Hk]. apply Nat.leb_le in Hk. change (si_maxkey simon32) with 8%nat in Hk. lia. }
  change (simon_r simon32 r key) with (simon_r simon32 r key0).
  destruct (key_len_ok (si_maxkey simon32) key) eqn:K; [|reflexivity]. cbn [assert_]. cbv zeta. rewrite N.eqb_refl.
  assert (E : simon_m simon32 key = simon_m simon32 key0).
  { rewrite L0, L; [reflexivity|]. unfold key_len_ok in K. apply andb_true_iff in K. destruct K as [_ K]. now apply Nat.leb_le in K. }
  rewrite E. unfold fits. now rewrite Hf.
Qed.
Lemma speck32_rekey_r : rekey_rounds (speck_desc speck32).
Proof.
  rkr. unfold speck_desc, bc_recreate, bc_create, speck_recreate, speck_create in *.
  apply fits_inv in H. destruct H as [Hf H]. unfold speck_setup in H.
  apply bind_ok in H. destruct H as ([k out] & _ & H). apply Ok_inj in H. subst s. cbn [speck_rounds].
  change (speck_r speck32 r key) with (speck_r speck32 r key0).
  rewrite N.eqb_refl. unfold fits. cbv zeta. now rewrite Hf.
Qed.
Lemma seed_rekey_r : rekey_rounds seed_desc.
Proof.
  rkr. unfold seed_desc, bc_recreate, bc_create, seed_recreate, seed_create in *.
  apply fits_inv in H. destruct H as [Hf H]. apply Ok_inj in H. subst s. cbn [seed_setup seed_r].
  rewrite N.eqb_refl. unfold fits. cbv zeta. now rewrite Hf.
Qed.
Lemma twofish_rekey_r : rekey_rounds twofish_desc.
Proof.
  rkr. unfold twofish_desc, bc_recreate, bc_create, twofish_recreate, twofish_create in *.
  apply fits_inv in H. destruct H as [Hf H]. apply Ok_inj in H. subst s. cbn [twf_setup twf_r].
  rewrite N.eqb_refl. unfold fits. cbv zeta. now rewrite Hf.
Qed.
Lemma serpent_rekey_r : rekey_rounds serpent_desc.
Proof.
  rkr. unfold serpent_desc, bc_recreate, bc_create, serpent_recreate, serpent_create in *.
  apply fits_inv in H. destruct H as [Hf H]. apply Ok_inj in H. subst s. cbn [serp_setup serp_r].
  rewrite N.eqb_refl. unfold fits. cbv zeta. now rewrite Hf.
Qed.
Lemma shacal2_rekey_r : rekey_rounds shacal2_desc.
Proof.
  rkr. unfold shacal2_desc, bc_recreate, bc_create, shacal2_recreate, shacal2_create in *.
  apply assert_inv in H. destruct H as [Ha H]. rewrite Ha.
  apply fits_inv in H. destruct H as [Hf H]. apply Ok_inj in H. subst s. cbn [shac_setup shac_r].
  rewrite N.eqb_refl. unfold fits. cbv zeta. now rewrite Hf.
Qed.
Lemma sm4_setup_r room r key s : sm4_setup room r key = Ok s -> sm4_r s = r.
Proof.
  intros H. unfold sm4_setup in H. cbv zeta in H. apply fits_inv in H. destruct H as [_ H].
  apply bind_ok in H. destruct H as (x & _ & H). apply Ok_inj in H. now subst s.
Qed.
Lemma sm4_rekey_r : rekey_rounds sm4_desc.
Proof.
  rkr. unfold sm4_desc, bc_recreate, bc_create, sm4_recreate, sm4_create in *. cbv zeta in *.
  now rewrite (sm4_setup_r _ _ _ _ H), N.eqb_refl.
Qed.
Lemma mfor_inv {A B} (g : A -> B) n i (f : nat -> A -> res A) x y :
  (forall j a b, f j a = Ok b -> g b = g a) -> mfor n i f x = Ok y -> g y = g x.
Proof.
  intros Hf. revert i x. induction n as [|n IH]; intros i x H; cbn [mfor] in H; [apply Ok_inj in H; now subst|].
  apply bind_ok in H. destruct H as (z & Hz & H). rewrite (IH _ _ H). exact (Hf _ _ _ Hz).
Qed.
Lemma bf_fill_r set n sb sb' : (forall i v s, bf_r (set i v s) = bf_r s) -> bf_fill set n sb = Ok sb' -> bf_r (fst sb') = bf_r (fst sb).
Proof.
  intros Hs. apply (mfor_inv (fun sb => bf_r (fst sb))). intros j a b H. apply bind_ok in H. destruct H as (x & _ & H).
  cbv zeta in H. apply Ok_inj in H. subst b. cbn [fst]. destruct (2 * j + 1 =? n)%nat; now rewrite !Hs.
Qed.
Lemma bf_setup_r r key s : bf_setup r key = Ok s -> bf_r s = r.
Proof.
  unfold bf_setup. destruct (34 <? r); [discriminate|]. cbv zeta. intros H.
  do 5 (apply bind_ok in H; let sb := fresh "sb" in let E := fresh "E" in destruct H as (sb & E & H); apply bf_fill_r in E; [|reflexivity]).
  apply Ok_inj in H. subst s. rewrite E3, E2, E1, E0, E. reflexivity.
Qed.
Lemma blowfish_rekey_r : rekey_rounds blowfish_desc.
Proof.
  rkr. unfold blowfish_desc, bc_recreate, bc_create, blowfish_recreate, blowfish_create in *. cbv zeta.
  now rewrite (bf_setup_r _ _ _ H), N.eqb_refl.
Qed.
Lemma khz_setup_r r key s : khz_setup r key = Ok s -> khz_r s = r.
Proof. unfold khz_setup. destruct (khz_key key). intros H. apply bind_ok in H. destruct H as (k & _ & H). apply Ok_inj in H. now subst s. Qed.
Lemma khazad_rekey_r : rekey_rounds khazad_desc.
Proof.
  rkr. unfold khazad_desc, bc_recreate, bc_create, khazad_recreate, khazad_create in *. cbv zeta in *.
  apply fits_inv in H. destruct H as [Hf H]. rewrite (khz_setup_r _ _ _ H), N.eqb_refl. unfold fits. now rewrite Hf.
Qed.
Lemma rounds_same c : rekey_rounds c -> rekey_same c.
Proof. intros H s r key0 key E _. exact (H s r key0 key E). Qed.

Lemma safer_setup_r sk r key s : safer_setup sk r key = Ok s -> safer_r s = r.
Proof.
  unfold safer_setup. cbv zeta. intros H. apply bind_ok in H. destruct H as (a & _ & H). apply bind_ok in H. destruct H as (b & _ & H).
  destruct (pfor _ _ _ _) as [[ks x] y]. apply Ok_inj in H. now subst s.
Qed.
Lemma safer_rekey sk : rekey_same (safer_desc sk).
Proof.
  rk. unfold safer_desc, bc_recreate, bc_create, safer_recreate, safer_create in *. cbv zeta in *.
  apply fits_inv in H. destruct H as [Hf H].
  assert (E : safer_rounds r key = safer_rounds r key0) by (unfold safer_rounds; now rewrite L).
  rewrite E, (safer_setup_r _ _ _ _ H), N.eqb_refl. unfold fits. now rewrite Hf.
Qed.
Lemma spp_setup_r r key s : spp_setup r key = Ok s -> spp_r s = r.
Proof.
  unfold spp_setup. cbv zeta. intros H. apply bind_ok in H. destruct H as (a & _ & H). apply bind_ok in H. destruct H as (b & _ & H).
  destruct (pfor _ _ _ _) as [[ks x] y]. apply Ok_inj in H. now subst s.
Qed.
Lemma saferpp_rekey : rekey_same saferpp_desc.
Proof.
  rk. unfold saferpp_desc, bc_recreate, bc_create, saferpp_recreate, saferpp_create in *. cbv zeta in *.
  apply fits_inv in H. destruct H as [Hf H].
  assert (E : saferpp_rounds r key = saferpp_rounds r key0) by (unfold saferpp_rounds; now rewrite L).
  rewrite E, (spp_setup_r _ _ _ H), N.eqb_refl. unfold fits. now rewrite Hf.
Qed.
Lemma anu_setup_r r key s : anu_setup r key = Ok s -> anu_r s = r.
Proof. unfold anu_setup. cbv zeta. intros H. apply bind_ok in H. destruct H as (k & _ & H). apply Ok_inj in H. now subst s. Qed.
Lemma anubis_rekey : rekey_same anubis_desc.
Proof.
  rk. unfold anubis_desc, bc_recreate, bc_create, anubis_recreate, anubis_create in *. cbv zeta in *.
  apply fits_inv in H. destruct H as [Hf H].
  assert (E : anubis_rounds r key = anubis_rounds r key0) by (unfold anubis_rounds, anu_words; now rewrite L).
  rewrite E, (anu_setup_r _ _ _ H), N.eqb_refl. unfold fits. now rewrite Hf.
Qed.
Lemma aria_rekey : rekey_same aria_desc.
Proof.
  rk. unfold aria_desc, bc_recreate, bc_create, aria_recreate, aria_create in *. cbv zeta in *.
  apply fits_inv in H. destruct H as [Hf H]. apply Ok_inj in H. subst s. cbn [aria_setup aria_r].
  assert (E : aria_rounds r key = aria_rounds r key0) by (unfold aria_rounds, aria_words; now rewrite L).
  rewrite E, N.eqb_refl. unfold fits. now rewrite Hf.
Qed.

Lemma rekey_any_rounds c : rekey_any c -> rekey_rounds c.
Proof. intros H s r key0 key _. apply H. Qed.
Lemma rekey_rounds_list : Forall rekey_rounds
  [xtea_desc; rc5_desc; rc6_desc; idea_desc; rectangle_desc; trax_desc trax_m; trax_desc trax_l;
   gost_desc gost_cbr; gost_desc gost_r3412; simon_desc simon32; speck_desc speck32;
   seed_desc; sm4_desc; blowfish_desc; twofish_desc; serpent_desc; shacal2_desc; khazad_desc].
Proof.
  repeat apply Forall_cons; try apply Forall_nil.
  all: first [exact xtea_rekey_r|exact rc5_rekey_r|exact rc6_rekey_r|exact idea_rekey_r|exact rectangle_rekey_r|apply trax_rekey_r|apply gost_rekey_r|exact simon32_rekey_r|exact speck32_rekey_r|
    exact seed_rekey_r|exact sm4_rekey_r|exact blowfish_rekey_r|exact twofish_rekey_r|exact serpent_rekey_r|exact shacal2_rekey_r|exact khazad_rekey_r].
Qed.

(** the use after free *)
Ltac uaf r0 k0 r k := eexists _, _, r0, k0, r, k; split; [reflexivity|split; reflexivity].
Lemma xtea_uaf : rekey_uaf xtea_desc. Proof. uaf 2 [1] 4 [1]. Qed.
Lemma rc5_uaf : rekey_uaf rc5_desc. Proof. uaf 2 [1] 4 [1]. Qed.
Lemma rc6_uaf : rekey_uaf rc6_desc. Proof. uaf 2 [1] 4 [1]. Qed.
Lemma lea_uaf : rekey_uaf lea_desc. Proof. uaf 4 [1] 8 [1]. Qed.
Lemma idea_uaf : rekey_uaf idea_desc. Proof. uaf 2 [1] 4 [1]. Qed.
Lemma rectangle_uaf : rekey_uaf rectangle_desc. Proof. uaf 2 [1] 4 [1]. Qed.
Lemma gost_uaf sb : rekey_uaf (gost_desc sb). Proof. uaf 2 [1] 4 [1]. Qed.
Lemma simon32_uaf : rekey_uaf (simon_desc simon32). Proof. uaf 4 [1] 5 [1]. Qed.
Lemma simon64_uaf : rekey_uaf (simon_desc simon64). Proof. uaf 4 [1] 5 [1]. Qed.
Lemma simon128_uaf : rekey_uaf (simon_desc simon128). Proof. uaf 4 [1] 5 [1]. Qed.
Lemma speck32_uaf : rekey_uaf (speck_desc speck32). Proof. uaf 2 [1; 2; 3] 4 [1; 2; 3]. Qed.
Lemma speck64_uaf : rekey_uaf (speck_desc speck64). Proof. uaf 2 [1; 2; 3; 4; 5] 4 [1; 2; 3; 4; 5]. Qed.
Lemma speck128_uaf : rekey_uaf (speck_desc speck128). Proof. uaf 2 [1; 2; 3; 4; 5; 6; 7; 8; 9] 4 [1; 2; 3; 4; 5; 6; 7; 8; 9]. Qed.
Lemma trax_m_uaf : rekey_uaf (trax_desc trax_m). Proof. uaf 2 [1] 4 [1]. Qed.
Lemma trax_l_uaf : rekey_uaf (trax_desc trax_l). Proof. uaf 2 [1] 4 [1]. Qed.
Ltac uafd k0 k := eexists _, _, k0, k; split; [vm_compute; reflexivity|split; [vm_compute; reflexivity|vm_compute; reflexivity]].
Lemma rijndael128_uaf : rekey_uaf rijndael128_desc. Proof. eexists _, _, 1, [1], 2, [1]. split; [vm_compute; reflexivity|]. split; [vm_compute; reflexivity|vm_compute; reflexivity]. Qed.
Lemma rijndael256_uaf : rekey_uaf rijndael256_desc. Proof. eexists _, _, 1, [1], 2, [1]. split; [vm_compute; reflexivity|]. split; [vm_compute; reflexivity|vm_compute; reflexivity]. Qed.
Lemma rijndael128_uaf_default : rekey_uaf_default rijndael128_desc. Proof. uafd (repeat 1 16) (repeat 1 24). Qed.
Lemma lea_uaf_default : rekey_uaf_default lea_desc. Proof. uafd (repeat 1 16) (repeat 1 32). Qed.
Lemma simon64_uaf_default : rekey_uaf_default (simon_desc simon64). Proof. uafd (repeat 1 12) (repeat 1 16). Qed.
Lemma simon128_uaf_default : rekey_uaf_default (simon_desc simon128). Proof. uafd (repeat 1 16) (repeat 1 32). Qed.
Lemma speck64_uaf_default : rekey_uaf_default (speck_desc speck64). Proof. uafd (repeat 1 12) (repeat 1 16). Qed.
Lemma speck128_uaf_default : rekey_uaf_default (speck_desc speck128). Proof. uafd (repeat 1 16) (repeat 1 32). Qed.

Definition uafb c r0 k0 r k : bool :=
  match bc_create c r0 k0, bc_create c r k with
  | Ok s, Ok _ => match bc_recreate c s r k with Err UseAfterFree => true | _ => false end
  | _, _ => false
  end.
Lemma uafb_ok c r0 k0 r k : uafb c r0 k0 r k = true -> rekey_uaf c.
Proof.
  unfold uafb. destruct (bc_create c r0 k0) as [s|] eqn:E0; [|discriminate]. destruct (bc_create c r k) as [s'|] eqn:E; [|discriminate].
  destruct (bc_recreate c s r k) as [|[]] eqn:F; try discriminate. intros _. now exists s, s', r0, k0, r, k.
Qed.
Lemma uafb_default c k0 k : uafb c 0 k0 0 k = true -> rekey_uaf_default c.
Proof.
  unfold uafb. destruct (bc_create c 0 k0) as [s|] eqn:E0; [|discriminate]. destruct (bc_create c 0 k) as [s'|] eqn:E; [|discriminate].
  destruct (bc_recreate c s 0 k) as [|[]] eqn:F; try discriminate. intros _. now exists s, s', k0, k.
Qed.
Ltac ub r0 k0 r k := apply (uafb_ok _ r0 k0 r k); vm_compute; reflexivity.
Ltac ubd k0 k := apply (uafb_default _ k0 k); vm_compute; reflexivity.
Lemma seed_uaf : rekey_uaf seed_desc. Proof. ub 2 [1] 4 [1]. Qed.
Lemma sm4_uaf : rekey_uaf sm4_desc. Proof. ub 4 [1] 8 [1]. Qed.
Lemma key1_ok m : (0 < m)%nat -> key_ok m [1].
Proof. intros H. split; [repeat constructor|cbn; lia]. Qed.
Lemma blowfish_create_r r key s : bc_create blowfish_desc r key = Ok s -> bf_r s = blowfish_rounds r.
Proof. intros E. apply assert_inv in E. destruct E as [_ E]. now apply bf_setup_r in E. Qed.
Lemma blowfish_recreate_uaf s r key : key_len_ok blowfish_maxkey key = true -> (blowfish_rounds r =? bf_r s) = false ->
  bc_recreate blowfish_desc s r key = Err UseAfterFree.
Proof. intros K E. unfold blowfish_desc, bc_recreate, blowfish_recreate. rewrite K. cbv zeta. now rewrite E. Qed.
Lemma blowfish_uaf : rekey_uaf blowfish_desc.
Proof.
  destruct (blowfish_works 2 [1] (key1_ok _ (Nat.lt_0_succ _))) as (s & E & _); [discriminate|].
  destruct (blowfish_works 4 [1] (key1_ok _ (Nat.lt_0_succ _))) as (s' & E' & _); [discriminate|].
  exists s, s', 2, [1], 4, [1]. split; [exact E|]. split; [exact E'|].
  apply blowfish_recreate_uaf; [reflexivity|]. rewrite (blowfish_create_r _ _ _ E). reflexivity.
Qed.
Lemma twofish_uaf : rekey_uaf twofish_desc. Proof. ub 2 [1] 4 [1]. Qed.
Lemma serpent_uaf : rekey_uaf serpent_desc. Proof. ub 8 [1] 16 [1]. Qed.
Lemma shacal2_uaf : rekey_uaf shacal2_desc. Proof. ub 16 [1] 24 [1]. Qed.
Lemma safer_uaf sk : rekey_uaf (safer_desc sk). Proof. destruct sk; ub 2 (repeat 1 8) 4 (repeat 1 8). Qed.
Lemma saferpp_uaf : rekey_uaf saferpp_desc. Proof. ub 2 (repeat 1 16) 4 (repeat 1 16). Qed.
Lemma khazad_uaf : rekey_uaf khazad_desc. Proof. ub 2 [1] 4 [1]. Qed.
Lemma anubis_uaf : rekey_uaf anubis_desc. Proof. ub 2 [1] 4 [1]. Qed.
Lemma aria_uaf : rekey_uaf aria_desc. Proof. ub 2 [1] 4 [1]. Qed.
Lemma safer_uaf_default sk : rekey_uaf_default (safer_desc sk). Proof. destruct sk; ubd (repeat 1 8) (repeat 1 16). Qed.
Lemma saferpp_uaf_default : rekey_uaf_default saferpp_desc. Proof. ubd (repeat 1 16) (repeat 1 32). Qed.
Lemma anubis_uaf_default : rekey_uaf_default anubis_desc. Proof. ubd (repeat 1 16) (repeat 1 20). Qed.
Lemma aria_uaf_default : rekey_uaf_default aria_desc. Proof. ubd (repeat 1 16) (repeat 1 24). Qed.

(** ** Zero padding of keys *)
Lemma upd_same (d : list N) j : upd d j (nth j d 0) = d.
Proof. revert j; induction d as [|x d IH]; intros [|j]; cbn; auto. now rewrite IH. Qed.
Lemma load_array_zeros k sh key n d : load_array k sh (key ++ repeat 0 n) d (length (key ++ repeat 0 n)) = load_array k sh key d (length key).
Proof.
  unfold load_array. rewrite app_length, repeat_length, pfor_app. cbn [Nat.add].
  rewrite (pfor_ext (length key) 0 _ (fun i d => upd d (i / k) (N.lor (nth (i / k) d 0) (N.shiftl (b_ key i) (sh i))))).
  2: { intros i x Hi. unfold b_. rewrite app_nth1 by lia. reflexivity. }
  set (z := pfor (length key) 0 _ d). clearbody z.
  assert (G : forall m i, (length key <= i)%nat ->
    pfor m i (fun i d => upd d (i / k) (N.lor (nth (i / k) d 0) (N.shiftl (b_ (key ++ repeat 0 n) i) (sh i)))) z = z).
  { induction m as [|m IH]; intros i Hi; cbn [pfor]; [reflexivity|].
    assert (E : b_ (key ++ repeat 0 n) i = 0).
    { unfold b_. rewrite app_nth2 by lia. destruct (Nat.lt_ge_cases (i - length key) n).
      - now apply nth_repeat. - apply nth_overflow. now rewrite repeat_length. }
    rewrite E, N.shiftl_0_l, N.lor_0_r, upd_same. apply IH. lia. }
  apply G. lia.
Qed.
Lemma key16b_zeros key n m : key16b (key ++ repeat 0 n) m = key16b key m. Proof. apply load_array_zeros. Qed.
Lemma key16l_zeros key n m : key16l (key ++ repeat 0 n) m = key16l key m. Proof. apply load_array_zeros. Qed.
Lemma key32b_zeros key n m : key32b (key ++ repeat 0 n) m = key32b key m. Proof. apply load_array_zeros. Qed.
Lemma key32l_zeros key n m : key32l (key ++ repeat 0 n) m = key32l key m. Proof. apply load_array_zeros. Qed.
Lemma key64l_zeros key n m : key64l (key ++ repeat 0 n) m = key64l key m. Proof. apply load_array_zeros. Qed.
Lemma key64b_zeros key n m : key64b (key ++ repeat 0 n) m = key64b key m. Proof. apply load_array_zeros. Qed.

Lemma key_len_zeros maxkey key n : key_ok maxkey key -> (length key + n <= maxkey)%nat ->
  key_len_ok maxkey (key ++ repeat 0 n) = true /\ key_len_ok maxkey key = true.
Proof.
  intros Hk H. split; apply key_len_ok_true; [|exact Hk]. destruct Hk as [B [H1 H2]]. split.
  - apply bytes_app. split; [exact B|apply bytes_repeat0].
  - rewrite app_length, repeat_length. lia.
Qed.
Ltac zx d := intros r key n Hk Hn Hs; unfold d, bc_create, bc_maxkey in *; destruct (key_len_zeros _ _ _ Hk Hn) as [K1 K2].
Definition any_len (a b : nat) : Prop := True.
Lemma tea_zeros : zero_extends any_len tea_desc.
Proof. zx tea_desc. unfold tea_create, tea_setup. rewrite K1, K2, key32b_zeros. reflexivity. Qed.
Lemma noekeon_zeros : zero_extends any_len noekeon_desc.
Proof. zx noekeon_desc. unfold noek_create, noek_setup. rewrite K1, K2, key32b_zeros. reflexivity. Qed.
Lemma threeway_zeros : zero_extends any_len threeway_desc.
Proof. zx threeway_desc. unfold tw_create, tw_setup. rewrite K1, K2, key32b_zeros. reflexivity. Qed.
Lemma crax_zeros : zero_extends any_len crax_desc.
Proof. zx crax_desc. unfold crax_create, crax_setup. rewrite K1, K2, key32l_zeros. reflexivity. Qed.
Lemma threefish_zeros p : zero_extends any_len (threefish_desc p).
Proof. zx threefish_desc. unfold tf_create, tf_setup. rewrite K1, K2, key64l_zeros. reflexivity. Qed.
Lemma trax_zeros p : zero_extends any_len (trax_desc p).
Proof. zx trax_desc. unfold trax_create, trax_setup. rewrite K1, K2, key32l_zeros. reflexivity. Qed.
Lemma idea_zeros : zero_extends any_len idea_desc.
Proof. zx idea_desc. unfold idea_create, idea_setup. rewrite K1, K2, key16b_zeros. reflexivity. Qed.
Lemma seed_zeros : zero_extends any_len seed_desc.
Proof. zx seed_desc. unfold seed_create, seed_setup. rewrite K1, K2, key32b_zeros. reflexivity. Qed.
Lemma shacal2_zeros : zero_extends any_len shacal2_desc.
Proof. zx shacal2_desc. unfold shacal2_create, shac_setup. rewrite K1, K2, key32b_zeros. reflexivity. Qed.
Lemma nth_zeros (key : list N) n i : nth i (key ++ repeat 0 n) 0 = nth i key 0.
Proof.
  destruct (Nat.lt_ge_cases i (length key)); [now apply app_nth1|]. rewrite app_nth2, (nth_overflow key) by assumption.
  destruct (Nat.lt_ge_cases (i - length key) n); [now apply nth_repeat|]. apply nth_overflow. now rewrite repeat_length.
Qed.
Lemma skipjack_zeros : zero_extends any_len skipjack_desc.
Proof.
  zx skipjack_desc. unfold skipjack_create. rewrite K1, K2.
  replace (skipjack_setup (key ++ repeat 0 n)) with (skipjack_setup key); [reflexivity|].
  unfold skipjack_setup. apply map_ext. intros i. symmetry. apply nth_zeros.
Qed.
Lemma sm4_load_zeros key n : sm4_load (key ++ repeat 0 n) = sm4_load key.
Proof.
  unfold sm4_load. rewrite app_length, repeat_length, pfor_app. cbn [Nat.add].
  set (g := fun (i : nat) (k : list N) => upd k (i / 4) (N.lxor (nth (i / 4) k 0) (wshl 32 (nth i key 0) (24 - 8 * N.of_nat (i mod 4))))).
  rewrite (pfor_ext (length key) 0 _ g). 2: { intros i x Hi. unfold g. now rewrite nth_zeros. }
  rewrite (pfor_ext n (length key) _ g). 2: { intros i x Hi. unfold g. now rewrite nth_zeros. }
  set (z := pfor (length key) 0 g sm4_fk). clearbody z.
  enough (G : forall m i, (length key <= i)%nat -> pfor m i g z = z) by (apply G; lia).
  induction m as [|m IH]; intros i Hi; cbn [pfor]; [reflexivity|].
  unfold g at 2. rewrite (nth_overflow key) by assumption. unfold wshl. rewrite N.shiftl_0_l, N.land_0_l || rewrite N.shiftl_0_l.
  rewrite N.lxor_0_r, upd_same. apply IH. lia.
Qed.
Lemma sm4_zeros : zero_extends any_len sm4_desc.
Proof. zx sm4_desc. unfold sm4_create, sm4_setup. rewrite K1, K2, sm4_load_zeros. reflexivity. Qed.
Lemma zeros_pad (key : list N) n m : (length key + n <= m)%nat ->
  (key ++ repeat 0 n) ++ repeat 0 (m - length (key ++ repeat 0 n)) = key ++ repeat 0 (m - length key).
Proof.
  intros H. rewrite <- app_assoc, <- repeat_app, app_length, repeat_length. f_equal. f_equal. lia.
Qed.
Lemma khazad_zeros : zero_extends any_len khazad_desc.
Proof.
  zx khazad_desc. unfold khazad_create, khz_setup, khz_key. change khazad_maxkey with 16%nat in *.
  rewrite K1, K2, zeros_pad by exact Hn. reflexivity.
Qed.
Lemma cast5_zeros : zero_extends (fun a b => (b <= 5 \/ 5 < a)%nat) cast5_desc.
Proof.
  zx cast5_desc. unfold cast5_create, cast5_setup. rewrite K1, K2, key32b_zeros, app_length, repeat_length.
  replace (length key + n <=? 5)%nat with (length key <=? 5)%nat; [reflexivity|].
  destruct (Nat.leb_spec (length key) 5), (Nat.leb_spec (length key + n) 5); try reflexivity; lia.
Qed.
Lemma des_part_zeros key n o : des_part (key ++ repeat 0 n) o = des_part key o.
Proof. unfold des_part. apply map_ext. intros i. apply nth_zeros. Qed.
Lemma des_zeros : zero_extends (fun a b => (b <= 8 \/ 8 < a /\ b <= 16 \/ 16 < a)%nat) des_desc.
Proof.
  zx des_desc. unfold des_create. rewrite K1, K2.
  replace (des_setup (key ++ repeat 0 n)) with (des_setup key); [reflexivity|].
  unfold des_setup. cbv zeta. rewrite !des_part_zeros, app_length, repeat_length.
  replace (16 <? length key + n)%nat with (16 <? length key)%nat by (destruct (Nat.ltb_spec 16 (length key)), (Nat.ltb_spec 16 (length key + n)); try reflexivity; exfalso; lia).
  replace (8 <? length key + n)%nat with (8 <? length key)%nat by (destruct (Nat.ltb_spec 8 (length key)), (Nat.ltb_spec 8 (length key + n)); try reflexivity; exfalso; lia).
  reflexivity.
Qed.
Lemma cam_expand_zeros key n : (length key + n <= 32)%nat ->
  (length key + n <= 8 \/ 16 < length key /\ length key + n <= 24 \/ 24 < length key)%nat ->
  cam_expand (key ++ repeat 0 n) = cam_expand key.
Proof.
  intros Hn Hs. unfold cam_expand. rewrite (app_length key), repeat_length.
  assert (P : forall m, (length key + n <= m)%nat -> cam_pad m (key ++ repeat 0 n) = cam_pad m key) by (intros m; apply zeros_pad).
  assert (Q : forall m x, (m <= length x)%nat -> cam_pad m x = x).
  { intros m x H. unfold cam_pad. replace (m - length x)%nat with 0%nat by lia. apply app_nil_r. }
  assert (L : forall m x, (length x <= m)%nat -> length (cam_pad m x) = m).
  { intros m x H. unfold cam_pad. rewrite app_length, repeat_length. lia. }
  assert (La : length (key ++ repeat 0 n) = (length key + n)%nat) by now rewrite app_length, repeat_length.
  destruct Hs as [H|[[H H']|H]].
  - rewrite (P 8%nat H). replace (length key + n <=? 16)%nat with true by (symmetry; apply Nat.leb_le; lia).
    replace (length key <=? 16)%nat with true by (symmetry; apply Nat.leb_le; lia). reflexivity.
  - rewrite (Q 8%nat (key ++ _)), (Q 8%nat key) by lia. rewrite La.
    replace (length key + n <=? 16)%nat with false by (symmetry; apply Nat.leb_gt; lia).
    replace (length key <=? 16)%nat with false by (symmetry; apply Nat.leb_gt; lia).
    replace (length key + n <? 16)%nat with false by (symmetry; apply Nat.ltb_ge; lia).
    replace (length key <? 16)%nat with false by (symmetry; apply Nat.ltb_ge; lia).
    rewrite (P 24%nat H'). reflexivity.
  - rewrite (Q 8%nat (key ++ _)), (Q 8%nat key) by lia. rewrite La.
    replace (length key + n <=? 16)%nat with false by (symmetry; apply Nat.leb_gt; lia).
    replace (length key <=? 16)%nat with false by (symmetry; apply Nat.leb_gt; lia).
    replace (length key + n <? 16)%nat with false by (symmetry; apply Nat.ltb_ge; lia).
    replace (length key <? 16)%nat with false by (symmetry; apply Nat.ltb_ge; lia).
    rewrite (Q 24%nat (key ++ _)), (Q 24%nat key) by lia. rewrite La.
    replace (length key + n =? 24)%nat with false by (symmetry; apply Nat.eqb_neq; lia).
    replace (length key =? 24)%nat with false by (symmetry; apply Nat.eqb_neq; lia).
    exact (P 32%nat Hn).
Qed.
Lemma camellia_zeros : zero_extends (fun a b => (b <= 8 \/ 16 < a /\ b <= 24 \/ 24 < a)%nat) camellia_desc.
Proof.
  zx camellia_desc. change camellia_maxkey with 32%nat in *. unfold camellia_create. change camellia_maxkey with 32%nat.
  rewrite K1, K2. unfold cam_setup. rewrite (cam_expand_zeros key n Hn Hs), (app_length key), repeat_length.
  replace (length key + n <=? 16)%nat with (length key <=? 16)%nat; [reflexivity|].
  destruct (Nat.leb_spec (length key) 16), (Nat.leb_spec (length key + n) 16); try reflexivity; exfalso; lia.
Qed.
(** A key of nine bytes is followed by the inverse of its last eight bytes. *)
Lemma camellia_nine_refuted : bc_create camellia_desc 0 (repeat 1 9 ++ repeat 0 7) <> bc_create camellia_desc 0 (repeat 1 9).
Proof.
  intros H. unfold camellia_desc, bc_create, camellia_create in H. cbn [assert_ key_len_ok camellia_maxkey length repeat app Nat.ltb Nat.leb andb] in H.
  change (0 =? 0) with true in H. cbn [assert_] in H. apply Ok_inj in H. apply (f_equal cam_kw) in H. vm_compute in H. discriminate H.
Qed.
(** Blowfish repeats the key *)
Lemma cyclic_twice (key : list N) i : nth (i mod length (key ++ key)) (key ++ key) 0 = nth (i mod length key) key 0.
Proof.
  destruct key as [|x key]; [now rewrite !nth_overflow by (cbn; lia)|]. set (l := x :: key). assert (Hl : length l <> 0%nat) by discriminate.
  clearbody l. rewrite app_length. set (n := length l) in *. pose proof (Nat.mod_upper_bound i (n + n) ltac:(lia)).
  assert (E : (i mod n = (i mod (n + n)) mod n)%nat).
  { replace (n + n)%nat with (n * 2)%nat by lia. rewrite Nat.mod_mul_r by lia. rewrite Nat.mul_comm, Nat.mod_add, Nat.mod_mod by lia. reflexivity. }
  rewrite E. set (j := (i mod (n + n))%nat) in *. destruct (Nat.lt_ge_cases j n).
  - rewrite app_nth1, Nat.mod_small by assumption. reflexivity.
  - rewrite app_nth2 by assumption. replace j with ((j - n) + 1 * n)%nat at 2 by lia. rewrite Nat.mod_add, Nat.mod_small by lia. reflexivity.
Qed.
Lemma blowfish_repeats r key : (0 < length key)%nat -> (length key <= 28)%nat ->
  bc_create blowfish_desc r (key ++ key) = bc_create blowfish_desc r key.
Proof.
  intros H0 H. unfold blowfish_desc, bc_create, blowfish_create.
  assert (K1 : key_len_ok blowfish_maxkey (key ++ key) = true).
  { unfold key_len_ok, blowfish_maxkey. rewrite app_length. apply andb_true_intro. split; [apply Nat.ltb_lt|apply Nat.leb_le]; lia. }
  assert (K2 : key_len_ok blowfish_maxkey key = true).
  { unfold key_len_ok, blowfish_maxkey. apply andb_true_intro. split; [apply Nat.ltb_lt|apply Nat.leb_le]; lia. }
  rewrite K1, K2. cbn [assert_]. unfold bf_setup. destruct (34 <? blowfish_rounds r); [reflexivity|]. cbv zeta.
  rewrite (map_ext (fun i => N.lxor (nth i bf_pi 0) (bf_key_word (key ++ key) i)) (fun i => N.lxor (nth i bf_pi 0) (bf_key_word key i))); [reflexivity|].
  intros i. unfold bf_key_word. cbv zeta. now rewrite !cyclic_twice.
Qed.
(** Serpent appends a one bit and zeros, as published *)
Lemma serp_key_pad key : (length key < 32)%nat -> serp_key (key ++ 1 :: repeat 0 (31 - length key)) = serp_key key.
Proof.
  intros H. unfold serp_key.
  assert (L : length (key ++ 1 :: repeat 0 (31 - length key)) = 32%nat) by (rewrite app_length; cbn [length]; rewrite repeat_length; lia).
  rewrite L. replace (Nat.ltb 32 32) with false by reflexivity. rewrite (proj2 (Nat.ltb_lt _ _) H).
  replace (key ++ 1 :: repeat 0 (31 - length key)) with ((key ++ [1]) ++ repeat 0 (31 - length key)) by now rewrite <- app_assoc.
  rewrite key32l_zeros. unfold key32l, load32l_array, load_array, sh_l. rewrite app_length. cbn [length]. rewrite pfor_app. cbn [pfor Nat.add].
  rewrite (pfor_ext (length key) 0 _ (fun i d => upd d (i / 4) (N.lor (nth (i / 4) d 0) (N.shiftl (b_ key i) (N.of_nat (8 * (i mod 4))))))).
  2: { intros i x Hi. unfold b_. rewrite app_nth1 by lia. reflexivity. }
  assert (E : b_ (key ++ [1]) (length key) = 1) by (unfold b_; rewrite app_nth2, Nat.sub_diag by lia; reflexivity).
  rewrite E. reflexivity.
Qed.
Lemma serpent_pad r key : (0 < length key < 32)%nat ->
  bc_create serpent_desc r (key ++ 1 :: repeat 0 (31 - length key)) = bc_create serpent_desc r key.
Proof.
  intros H. unfold serpent_desc, bc_create, serpent_create.
  assert (K1 : key_len_ok serpent_maxkey (key ++ 1 :: repeat 0 (31 - length key)) = true).
  { unfold key_len_ok, serpent_maxkey. rewrite app_length. cbn [length]. rewrite repeat_length. apply andb_true_intro. split; [apply Nat.ltb_lt|apply Nat.leb_le]; lia. }
  assert (K2 : key_len_ok serpent_maxkey key = true).
  { unfold key_len_ok, serpent_maxkey. apply andb_true_intro. split; [apply Nat.ltb_lt|apply Nat.leb_le]; lia. }
  rewrite K1, K2. unfold serp_setup, serp_prekeys. rewrite serp_key_pad by lia. reflexivity.
Qed.
Definition differb {A} (f : A -> N) (x y : res A) : bool :=
  match x, y with Ok a, Ok b => negb (f a =? f b) | _, _ => false end.
Lemma differb_neq {A} (f : A -> N) x y : differb f x y = true -> x <> y.
Proof. intros H ->. unfold differb in H. destruct y; [|discriminate]. now rewrite N.eqb_refl in H. Qed.
Lemma serpent_differ : differb (fun s => nth 0 (serp_k s) 0) (bc_create serpent_desc 8 ([1] ++ repeat 0 1)) (bc_create serpent_desc 8 [1]) = true.
Proof. vm_compute. reflexivity. Qed.
Lemma serpent_zeros_refuted : ~ zero_extends any_len serpent_desc.
Proof.
  intros H. exact (differb_neq _ _ _ serpent_differ (H 8 [1] 1%nat (key1_ok 32 (Nat.lt_0_succ 31)) (proj1 (Nat.leb_le 2 32) eq_refl) I)).
Qed.
Lemma blowfish_differ : differb (fun s => nth 0 (bf_p s) 0) (bc_create blowfish_desc 2 ([1] ++ repeat 0 1)) (bc_create blowfish_desc 2 [1]) = true.
Proof. vm_compute. reflexivity. Qed.
Lemma blowfish_zeros_refuted : ~ zero_extends any_len blowfish_desc.
Proof.
  intros H. exact (differb_neq _ _ _ blowfish_differ (H 2 [1] 1%nat (key1_ok 56 (Nat.lt_0_succ 55)) (proj1 (Nat.leb_le 2 56) eq_refl) I)).
Qed.
Lemma rectangle_zeros : zero_extends (fun a b => (b <= 10 \/ 10 < a)%nat) rectangle_desc.
Proof.
  zx rectangle_desc. unfold rect_create, rect_setup. rewrite K1, K2, key32b_zeros, key16b_zeros.
  rewrite app_length, repeat_length.
  destruct (Nat.ltb_spec 10 (length key)), (Nat.ltb_spec 10 (length key + n)); try reflexivity; lia.
Qed.
(** same number of words, rounded up *)
Definition same_words (k a b : nat) : Prop := Nat.div (a + (k - 1)) k = Nat.div (b + (k - 1)) k.
Lemma xtea_zeros : zero_extends (same_words 4) xtea_desc.
Proof.
  zx xtea_desc. unfold xtea_create, xtea_setup. rewrite K1, K2, key32b_zeros, app_length, repeat_length.
  assert (E : wshr (N.of_nat (length key + n) + 3) 2 = wshr (N.of_nat (length key) + 3) 2).
  { unfold same_words in Hs. cbn [Nat.sub] in Hs. unfold wshr. rewrite !N.shiftr_div_pow2. change (2 ^ 2) with (N.of_nat 4).
    change 3 with (N.of_nat 3). rewrite <- !Nat2N.inj_add, <- !Nat2N.inj_div. now rewrite Hs. }
  now rewrite E.
Qed.
Lemma gost_zeros sb : zero_extends (same_words 4) (gost_desc sb).
Proof.
  zx gost_desc. unfold gost_create, gost_setup.
  assert (E : gost_kl (key ++ repeat 0 n) = gost_kl key).
  { unfold gost_kl. rewrite app_length, repeat_length. unfold same_words in Hs. cbn [Nat.sub] in Hs. first [now rewrite Hs | now rewrite <- Hs]. }
  rewrite K1, K2, E, key32l_zeros. reflexivity.
Qed.
Lemma rj_zeros bs min sh r key n : key_ok 32 key -> (length key + n <= 32)%nat -> same_words 4 (length key) (length key + n)%nat ->
  rj_create bs min sh r (key ++ repeat 0 n) = rj_create bs min sh r key.
Proof.
  intros [_ Hk] Hn Hs. unfold same_words in Hs. cbn [Nat.sub] in Hs. unfold rj_create.
  assert (E : Nat.div (length (key ++ repeat 0 n) + 3) 4 = Nat.div (length key + 3) 4) by (rewrite app_length, repeat_length; symmetry; exact Hs).
  assert (K1 : key_len_ok rj_maxkey (key ++ repeat 0 n) = true).
  { unfold key_len_ok, rj_maxkey. rewrite app_length, repeat_length. apply andb_true_intro. split; [apply Nat.ltb_lt|apply Nat.leb_le]; lia. }
  assert (K2 : key_len_ok rj_maxkey key = true).
  { unfold key_len_ok, rj_maxkey. apply andb_true_intro. split; [apply Nat.ltb_lt|apply Nat.leb_le]; lia. }
  unfold rj_rounds, rj_setup. rewrite K1, K2, E, key32b_zeros. reflexivity.
Qed.
Lemma rijndael128_zeros : zero_extends (same_words 4) rijndael128_desc. Proof. intros r key n. apply (rj_zeros 4 10 5). Qed.
Lemma rijndael256_zeros : zero_extends (same_words 4) rijndael256_desc. Proof. intros r key n. apply (rj_zeros 8 14 6). Qed.
Lemma simon_zeros p : (forall key n m, si_key p (key ++ repeat 0 n) m = si_key p key m) ->
  zero_extends (same_words (si_k p)) (simon_desc p).
Proof.
  intros Hkey. zx simon_desc. unfold simon_create, simon_setup.
  assert (E : simon_words p (key ++ repeat 0 n) = simon_words p key).
  { unfold simon_words. rewrite app_length, repeat_length. symmetry. exact Hs. }
  unfold simon_r, simon_m. rewrite K1, K2, E, Hkey. reflexivity.
Qed.
Lemma simon32_zeros : zero_extends (same_words 2) (simon_desc simon32). Proof. apply (simon_zeros simon32), key16l_zeros. Qed.
Lemma simon64_zeros : zero_extends (same_words 4) (simon_desc simon64). Proof. apply (simon_zeros simon64), key32l_zeros. Qed.
Lemma simon128_zeros : zero_extends (same_words 8) (simon_desc simon128). Proof. apply (simon_zeros simon128), key64l_zeros. Qed.
Lemma speck_zeros p : (forall key n m, sp_key p (key ++ repeat 0 n) m = sp_key p key m) ->
  zero_extends (same_words (sp_k p)) (speck_desc p).
Proof.
  intros Hkey. zx speck_desc. unfold speck_create, speck_setup.
  assert (E : speck_words p (key ++ repeat 0 n) = speck_words p key).
  { unfold speck_words. rewrite app_length, repeat_length. symmetry. exact Hs. }
  unfold speck_r. rewrite K1, K2, E, Hkey. reflexivity.
Qed.
Lemma speck32_zeros : zero_extends (same_words 2) (speck_desc speck32). Proof. apply (speck_zeros speck32), key16l_zeros. Qed.
Lemma speck64_zeros : zero_extends (same_words 4) (speck_desc speck64). Proof. apply (speck_zeros speck64), key32l_zeros. Qed.
Lemma speck128_zeros : zero_extends (same_words 8) (speck_desc speck128). Proof. apply (speck_zeros speck128), key64l_zeros. Qed.
Lemma twofish_zeros : zero_extends (same_words 8) twofish_desc.
Proof.
  zx twofish_desc. unfold twofish_create, twf_setup.
  assert (E : twf_len (key ++ repeat 0 n) = twf_len key).
  { unfold twf_len. rewrite app_length, repeat_length. unfold same_words in Hs. cbn [Nat.sub] in Hs. now rewrite Hs. }
  assert (E2 : twf_key (key ++ repeat 0 n) = twf_key key).
  { unfold twf_key. rewrite E. apply zeros_pad. unfold same_words in Hs. cbn [Nat.sub] in Hs. unfold twf_len. rewrite Hs.
    pose proof (Nat.div_mod_eq (length key + n + 7) 8). pose proof (Nat.mod_upper_bound (length key + n + 7) 8 ltac:(lia)). lia. }
  rewrite K1, K2, E, E2. reflexivity.
Qed.
Lemma anubis_zeros : zero_extends (same_words 4) anubis_desc.
Proof.
  zx anubis_desc. unfold anubis_create, anu_setup, anubis_rounds.
  assert (E : anu_words (key ++ repeat 0 n) = anu_words key).
  { unfold anu_words. rewrite app_length, repeat_length. unfold same_words in Hs. cbn [Nat.sub] in Hs. now rewrite Hs. }
  rewrite K1, K2, E, key32b_zeros. reflexivity.
Qed.
Lemma aria_zeros : zero_extends (same_words 4) aria_desc.
Proof.
  zx aria_desc. unfold aria_create, aria_setup, aria_keys, aria_rounds, aria_expand.
  assert (E : aria_words (key ++ repeat 0 n) = aria_words key).
  { unfold aria_words. rewrite app_length, repeat_length. unfold same_words in Hs. cbn [Nat.sub] in Hs. now rewrite Hs. }
  rewrite K1, K2, E, key32b_zeros. reflexivity.
Qed.
Lemma lea_zeros : zero_extends (fun a b => (b <= 16 \/ 16 < a /\ b <= 24 \/ 24 < a)%nat) lea_desc.
Proof.
  zx lea_desc. unfold lea_create, lea_setup, lea_sched, lea_rounds. rewrite K1, K2, !key32l_zeros, app_length, repeat_length.
  destruct (Nat.ltb_spec 24 (length key)), (Nat.ltb_spec 24 (length key + n)), (Nat.ltb_spec 16 (length key)),
    (Nat.ltb_spec 16 (length key + n)); try reflexivity; exfalso; lia.
Qed.

Lemma rekey_any_list : Forall rekey_any
  [tea_desc; noekeon_desc; rc2_desc; threeway_desc; crax_desc;
   threefish_desc threefish256; threefish_desc threefish512; threefish_desc threefish1024;
   skipjack_desc; cast5_desc; des_desc; camellia_desc].
Proof. repeat apply Forall_cons; try apply Forall_nil; intros s r key; reflexivity. Qed.
Lemma rekey_same_list : Forall rekey_same
  [xtea_desc; rc5_desc; rc6_desc; lea_desc; idea_desc; rectangle_desc; gost_desc gost_cbr; gost_desc gost_r3412;
   simon_desc simon32; simon_desc simon64; simon_desc simon128; speck_desc speck32; speck_desc speck64; speck_desc speck128;
   trax_desc trax_m; trax_desc trax_l; rijndael128_desc; rijndael256_desc;
   seed_desc; sm4_desc; blowfish_desc; twofish_desc; serpent_desc; shacal2_desc; khazad_desc;
   safer_desc false; safer_desc true; saferpp_desc; anubis_desc; aria_desc].
Proof.
  repeat apply Forall_cons; try apply Forall_nil.
  all: first [exact xtea_rekey|exact rc5_rekey|exact rc6_rekey|exact lea_rekey|exact idea_rekey|exact rectangle_rekey|
    apply gost_rekey|apply simon_rekey|apply speck_rekey|apply trax_rekey|exact rijndael128_rekey|exact rijndael256_rekey|
    exact (rounds_same _ seed_rekey_r)|exact (rounds_same _ sm4_rekey_r)|exact (rounds_same _ blowfish_rekey_r)|exact (rounds_same _ twofish_rekey_r)|exact (rounds_same _ serpent_rekey_r)|exact (rounds_same _ shacal2_rekey_r)|exact (rounds_same _ khazad_rekey_r)|
    apply safer_rekey|exact saferpp_rekey|exact anubis_rekey|exact aria_rekey].
Qed.
Lemma rekey_uaf_list : Forall rekey_uaf
  [xtea_desc; rc5_desc; rc6_desc; lea_desc; idea_desc; rectangle_desc; gost_desc gost_cbr; gost_desc gost_r3412;
   simon_desc simon32; simon_desc simon64; simon_desc simon128; speck_desc speck32; speck_desc speck64; speck_desc speck128;
   trax_desc trax_m; trax_desc trax_l; rijndael128_desc; rijndael256_desc;
   seed_desc; sm4_desc; blowfish_desc; twofish_desc; serpent_desc; shacal2_desc; khazad_desc;
   safer_desc false; safer_desc true; saferpp_desc; anubis_desc; aria_desc].
Proof.
  repeat apply Forall_cons; try apply Forall_nil.
  all: first [exact xtea_uaf|exact rc5_uaf|exact rc6_uaf|exact lea_uaf|exact idea_uaf|exact rectangle_uaf|
    apply gost_uaf|exact simon32_uaf|exact simon64_uaf|exact simon128_uaf|exact speck32_uaf|exact speck64_uaf|exact speck128_uaf|
    exact trax_m_uaf|exact trax_l_uaf|exact rijndael128_uaf|exact rijndael256_uaf|
    exact seed_uaf|exact sm4_uaf|exact blowfish_uaf|exact twofish_uaf|exact serpent_uaf|exact shacal2_uaf|exact khazad_uaf|
    apply safer_uaf|exact saferpp_uaf|exact anubis_uaf|exact aria_uaf].
Qed.
Lemma rekey_uaf_default_list : Forall rekey_uaf_default
  [lea_desc; simon_desc simon64; simon_desc simon128; speck_desc speck64; speck_desc speck128; rijndael128_desc;
   safer_desc false; safer_desc true; saferpp_desc; anubis_desc; aria_desc].
Proof.
  repeat apply Forall_cons; try apply Forall_nil.
  all: first [apply safer_uaf_default|exact saferpp_uaf_default|exact anubis_uaf_default|exact aria_uaf_default|exact rijndael128_uaf_default|exact lea_uaf_default|exact simon64_uaf_default|exact simon128_uaf_default|exact speck64_uaf_default|exact speck128_uaf_default].
Qed.
Lemma zeros_list : Forall (zero_extends (fun _ _ => True))
  [tea_desc; noekeon_desc; threeway_desc; crax_desc; idea_desc; trax_desc trax_m; trax_desc trax_l;
   threefish_desc threefish256; threefish_desc threefish512; threefish_desc threefish1024;
   seed_desc; sm4_desc; skipjack_desc; shacal2_desc; khazad_desc].
Proof.
  repeat apply Forall_cons; try apply Forall_nil.
  all: first [exact seed_zeros|exact sm4_zeros|exact skipjack_zeros|exact shacal2_zeros|exact khazad_zeros|exact tea_zeros|exact noekeon_zeros|exact threeway_zeros|exact crax_zeros|exact idea_zeros|
    exact (trax_zeros trax_m)|exact (trax_zeros trax_l)|exact (threefish_zeros threefish256)|
    exact (threefish_zeros threefish512)|exact (threefish_zeros threefish1024)].
Qed.
Lemma zeros_words4_list : Forall (zero_extends (same_words 4))
  [xtea_desc; gost_desc gost_cbr; gost_desc gost_r3412; simon_desc simon64; speck_desc speck64; rijndael128_desc; rijndael256_desc;
   anubis_desc; aria_desc].
Proof.
  repeat apply Forall_cons; try apply Forall_nil.
  all: first [exact anubis_zeros|exact aria_zeros|exact rijndael128_zeros|exact rijndael256_zeros|exact xtea_zeros|apply gost_zeros|exact simon64_zeros|exact speck64_zeros].
Qed.
Lemma zeros_words2_list : Forall (zero_extends (same_words 2)) [simon_desc simon32; speck_desc speck32].
Proof. repeat apply Forall_cons; try apply Forall_nil; [exact simon32_zeros|exact speck32_zeros]. Qed.
Lemma zeros_words8_list : Forall (zero_extends (same_words 8)) [simon_desc simon128; speck_desc speck128; twofish_desc].
Proof. repeat apply Forall_cons; try apply Forall_nil; [exact simon128_zeros|exact speck128_zeros|exact twofish_zeros]. Qed.

(** ** Tweaks *)
From Verif Require Import Proof.ThreefishP Proof.SparxP.
Lemma threefish_tweak p r key tweak : In p [threefish256; threefish512; threefish1024] ->
  key_ok (8 * tf_n p) key -> tf_rounds_ok p r -> (length tweak <= 16)%nat ->
  exists s s', tf_create p r key = Ok s /\ tf_tweak s tweak = Ok s' /\
    permutation (8 * tf_n p) (tf_encrypt p s') (tf_decrypt p s').
Proof.
  intros Hp. apply tf_perm_tweak. destruct Hp as [<-|[<-|[<-|[]]]];
  [exact threefish256_good|exact threefish512_good|exact threefish1024_good].
Qed.
Lemma trax_tweak_perm p r key tweak : In p [trax_m; trax_l] -> key_ok (4 * tr_n p) key ->
  (trax_r p r + 1) * (4 * N.of_nat (tr_n p)) < 2 ^ 32 -> bytes_ok tweak -> (length tweak <= 2 * tr_n p)%nat ->
  exists s s', trax_create p r key = Ok s /\ trax_set_tweak p s tweak = Ok s' /\
    permutation (4 * tr_n p) (trax_encrypt p s') (trax_decrypt p s').
Proof.
  intros Hp. apply trax_perm_tweak. destruct Hp as [<-|[<-|[]]]; [exact trax_m_good|exact trax_l_good].
Qed.
Lemma tf_tweak_zeros s s1 tweak tweak1 n : tf_tweak s tweak1 = Ok s1 -> (length tweak + n <= 16)%nat ->
  tf_tweak s1 (tweak ++ repeat 0 n) = tf_tweak s tweak.
Proof.
  unfold tf_tweak, tf_maxtweak. intros H Hn. destruct (_ <=? _)%nat in H; [|discriminate]. apply Ok_inj in H. subst s1.
  cbn [tf_rounds tf_k]. rewrite app_length, repeat_length, key64l_zeros.
  rewrite !(proj2 (Nat.leb_le _ _)) by lia. reflexivity.
Qed.
Lemma trax_tweak_zeros p s s1 tweak tweak1 n : trax_set_tweak p s tweak1 = Ok s1 -> (length tweak + n <= 2 * tr_n p)%nat ->
  trax_set_tweak p s1 (tweak ++ repeat 0 n) = trax_set_tweak p s tweak.
Proof.
  unfold trax_set_tweak, trax_maxtweak. intros H Hn. destruct (_ <=? _)%nat in H; [|discriminate]. apply Ok_inj in H. subst s1.
  cbn [trax_steps trax_k]. rewrite app_length, repeat_length, key32l_zeros.
  rewrite !(proj2 (Nat.leb_le _ _)) by lia. reflexivity.
Qed.
Lemma trax_tweak_rekey p s s' r key0 key tweak : trax_create p r key0 = Ok s -> trax_set_tweak p s tweak = Ok s' ->
  length key = length key0 -> trax_recreate p s' r key = trax_create p r key.
Proof.
  intros H0 H1 L. unfold trax_set_tweak in H1. destruct (_ <=? _)%nat in H1; [|discriminate]. apply Ok_inj in H1. subst s'.
  rewrite <- (trax_rekey p s r key0 key H0 L). reflexivity.
Qed.
Lemma tf_tweak_long s tweak : (16 < length tweak)%nat -> tf_tweak s tweak = Err OobWrite.
Proof. intros H. unfold tf_tweak, tf_maxtweak. destruct (Nat.leb_spec (length tweak) 16); [lia|reflexivity]. Qed.

From Verif Require Import Lib.Bytes Proof.LoadStoreP.
Lemma tf_tweak_inj s s' t1 t2 : length t1 = 16%nat -> length t2 = 16%nat -> bytes_ok t1 -> bytes_ok t2 ->
  tf_tweak s t1 = Ok s' -> tf_tweak s t2 = Ok s' -> t1 = t2.
Proof.
  intros L1 L2 B1 B2 H1 H2. unfold tf_tweak in *. rewrite L1 in H1. rewrite L2 in H2. cbn [Nat.leb tf_maxtweak] in *.
  apply Ok_inj in H1. apply Ok_inj in H2. subst s'. apply (f_equal tf_t) in H2. cbn [tf_t] in H2.
  apply app_inj_tail in H2. destruct H2 as [H2 _].
  rewrite !key64l_loads in H2 by (try assumption; lia).
  rewrite <- (stores_loads codec64l 2 t1), <- (stores_loads codec64l 2 t2) by (split; assumption). now rewrite H2.
Qed.
