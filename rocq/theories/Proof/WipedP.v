(** Each block cipher wipes what it allocated. *)
From Coq Require Import NArith Arith List Bool Lia.
From Verif Require Import Lib.Word Lib.Res Lib.BlockLemmas Model.BlockApi Model.Ciphers
  Model.Tea Model.Xtea Model.Rc5 Model.Rc6 Model.Speck Model.Simon Model.Threefish Model.Lea Model.Sparx
  Model.Noekeon Model.Rectangle Model.Rc2 Model.Threeway Model.Gost Model.Idea Model.Rijndael
  Model.Seed Model.Sm4 Model.Skipjack Model.Cast5 Model.Des Model.Blowfish Model.Camellia Model.Twofish Model.Serpent Model.Shacal2 Model.Safer Model.Saferpp Model.Khazad Model.Anubis Model.Aria
  Model.Destroy Spec.Destroy Proof.CiphersP Proof.RekeyP Proof.DestroyP.
Import ListNotations.
Local Open Scope N_scope.

Lemma live_wiped c alloc wiped :
  (forall r key s, bc_create c r key = Ok s -> wiped s = alloc r key) ->
  (forall s r key s', bc_recreate c s r key = Ok s' -> wiped s' = wiped s) -> block_wiped c alloc wiped.
Proof.
  intros Hc Hr st n s L. replace (wiped s) with n; [apply plain_clean|].
  induction L as [r key s H|n s r key s' L IH H]; [symmetry; now apply Hc|]. rewrite IH. symmetry. exact (Hr _ _ _ _ H).
Qed.
Lemma fixed_size c : block_wiped c fixed_alloc fixed_wiped.
Proof. apply live_wiped; reflexivity. Qed.
Ltac strip H := repeat first [apply assert_inv in H; destruct H as [_ H]|apply fits_inv in H; destruct H as [_ H]]; cbv zeta in H.
Ltac unstrip H := strip H; repeat (first [apply assert_inv in H; destruct H as [_ H]|apply fits_inv in H; destruct H as [_ H]]).
Ltac same H E := unstrip H; match type of H with (if ?b then _ else _) = _ => destruct b eqn:E; [|discriminate H] end; apply N.eqb_eq in E; unstrip H.
Lemma xtea_all_wiped : block_wiped xtea_desc xtea_alloc xtea_wiped.
Proof.
  apply live_wiped; unfold xtea_desc, bc_create, bc_recreate.
  - unfold xtea_create. intros r key s H. unstrip H. apply Ok_inj in H. now subst s.
  - unfold xtea_recreate. intros s r key s' H. same H E. apply Ok_inj in H. subst s'. unfold xtea_wiped. now rewrite <- E.
Qed.
Lemma rc5_all_wiped : block_wiped rc5_desc rc5_alloc rc5_wiped.
Proof.
  apply live_wiped; unfold rc5_desc, bc_create, bc_recreate.
  - unfold rc5_create. intros r key s H. unstrip H. apply Ok_inj in H. now subst s.
  - unfold rc5_recreate. intros s r key s' H. same H E. apply Ok_inj in H. subst s'. unfold rc5_wiped. now rewrite <- E.
Qed.
Lemma rc6_all_wiped : block_wiped rc6_desc rc6_alloc rc6_wiped.
Proof.
  apply live_wiped; unfold rc6_desc, bc_create, bc_recreate.
  - unfold rc6_create. intros r key s H. unstrip H. apply Ok_inj in H. now subst s.
  - unfold rc6_recreate. intros s r key s' H. same H E. apply Ok_inj in H. subst s'. unfold rc6_wiped. now rewrite <- E.
Qed.
Lemma lea_all_wiped : block_wiped lea_desc lea_alloc lea_wiped.
Proof.
  apply live_wiped; unfold lea_desc, bc_create, bc_recreate.
  - unfold lea_create. intros r key s H. unstrip H. apply Ok_inj in H. now subst s.
  - unfold lea_recreate. intros s r key s' H. same H E. apply Ok_inj in H. subst s'. unfold lea_wiped. now rewrite <- E.
Qed.
Lemma rect_all_wiped : block_wiped rectangle_desc rect_alloc rect_wiped.
Proof.
  apply live_wiped; unfold rectangle_desc, bc_create, bc_recreate.
  - unfold rect_create. intros r key s H. unstrip H. apply Ok_inj in H. now subst s.
  - unfold rect_recreate. intros s r key s' H. same H E. apply Ok_inj in H. subst s'. unfold rect_wiped. now rewrite <- E.
Qed.
Lemma idea_all_wiped : block_wiped idea_desc idea_alloc idea_wiped.
Proof.
  apply live_wiped; unfold idea_desc, bc_create, bc_recreate.
  - unfold idea_create. intros r key s H. unstrip H. apply Ok_inj in H. now subst s.
  - unfold idea_recreate. intros s r key s' H. same H E. apply Ok_inj in H. subst s'. unfold idea_wiped. now rewrite <- E.
Qed.
Lemma seed_all_wiped : block_wiped seed_desc seed_alloc seed_wiped.
Proof.
  apply live_wiped; unfold seed_desc, bc_create, bc_recreate.
  - unfold seed_create. intros r key s H. unstrip H. apply Ok_inj in H. now subst s.
  - unfold seed_recreate. intros s r key s' H. same H E. apply Ok_inj in H. subst s'. unfold seed_wiped. now rewrite <- E.
Qed.
Lemma twofish_all_wiped : block_wiped twofish_desc twofish_alloc twofish_wiped.
Proof.
  apply live_wiped; unfold twofish_desc, bc_create, bc_recreate.
  - unfold twofish_create. intros r key s H. unstrip H. apply Ok_inj in H. now subst s.
  - unfold twofish_recreate. intros s r key s' H. same H E. apply Ok_inj in H. subst s'. unfold twofish_wiped. now rewrite <- E.
Qed.
Lemma serpent_all_wiped : block_wiped serpent_desc serpent_alloc serpent_wiped.
Proof.
  apply live_wiped; unfold serpent_desc, bc_create, bc_recreate.
  - unfold serpent_create. intros r key s H. unstrip H. apply Ok_inj in H. now subst s.
  - unfold serpent_recreate. intros s r key s' H. same H E. apply Ok_inj in H. subst s'. unfold serpent_wiped. now rewrite <- E.
Qed.
Lemma shacal2_all_wiped : block_wiped shacal2_desc shacal2_alloc shacal2_wiped.
Proof.
  apply live_wiped; unfold shacal2_desc, bc_create, bc_recreate.
  - unfold shacal2_create. intros r key s H. unstrip H. apply Ok_inj in H. now subst s.
  - unfold shacal2_recreate. intros s r key s' H. same H E. apply Ok_inj in H. subst s'. unfold shacal2_wiped. now rewrite <- E.
Qed.
Lemma aria_all_wiped : block_wiped aria_desc aria_alloc aria_wiped.
Proof.
  apply live_wiped; unfold aria_desc, bc_create, bc_recreate.
  - unfold aria_create. intros r key s H. unstrip H. apply Ok_inj in H. now subst s.
  - unfold aria_recreate. intros s r key s' H. same H E. apply Ok_inj in H. subst s'. unfold aria_wiped. now rewrite <- E.
Qed.
Lemma sm4_all_wiped : block_wiped sm4_desc sm4_alloc sm4_wiped.
Proof.
  apply live_wiped; unfold sm4_desc, bc_create, bc_recreate.
  - unfold sm4_create. intros r key s H. apply assert_inv in H. destruct H as [_ H]. cbv zeta in H. unfold sm4_wiped. now rewrite (sm4_setup_r _ _ _ _ H).
  - unfold sm4_recreate. intros s r key s' H. apply assert_inv in H. destruct H as [_ H]. cbv zeta in H.
    destruct (sm4_rounds r =? sm4_r s) eqn:E; [|discriminate H]. apply N.eqb_eq in E. unfold sm4_wiped. now rewrite (sm4_setup_r _ _ _ _ H), <- E.
Qed.
Lemma blowfish_all_wiped : block_wiped blowfish_desc blowfish_alloc blowfish_wiped.
Proof.
  apply live_wiped; unfold blowfish_desc, bc_create, bc_recreate.
  - unfold blowfish_create. intros r key s H. unstrip H. unfold blowfish_wiped. now rewrite (bf_setup_r _ _ _ H).
  - unfold blowfish_recreate. intros s r key s' H. same H E. unfold blowfish_wiped. now rewrite (bf_setup_r _ _ _ H), <- E.
Qed.
Lemma saferpp_all_wiped : block_wiped saferpp_desc saferpp_alloc saferpp_wiped.
Proof.
  apply live_wiped; unfold saferpp_desc, bc_create, bc_recreate.
  - unfold saferpp_create. intros r key s H. unstrip H. unfold saferpp_wiped. now rewrite (spp_setup_r _ _ _ H).
  - unfold saferpp_recreate. intros s r key s' H. same H E. unfold saferpp_wiped. now rewrite (spp_setup_r _ _ _ H), <- E.
Qed.
Lemma khazad_all_wiped : block_wiped khazad_desc khazad_alloc khazad_wiped.
Proof.
  apply live_wiped; unfold khazad_desc, bc_create, bc_recreate.
  - unfold khazad_create. intros r key s H. unstrip H. unfold khazad_wiped. now rewrite (khz_setup_r _ _ _ H).
  - unfold khazad_recreate. intros s r key s' H. same H E. unfold khazad_wiped. now rewrite (khz_setup_r _ _ _ H), <- E.
Qed.
Lemma anubis_all_wiped : block_wiped anubis_desc anubis_alloc anubis_wiped.
Proof.
  apply live_wiped; unfold anubis_desc, bc_create, bc_recreate.
  - unfold anubis_create. intros r key s H. unstrip H. unfold anubis_wiped. now rewrite (anu_setup_r _ _ _ H).
  - unfold anubis_recreate. intros s r key s' H. same H E. unfold anubis_wiped. now rewrite (anu_setup_r _ _ _ H), <- E.
Qed.
Lemma safer_all_wiped sk : block_wiped (safer_desc sk) safer_alloc safer_wiped.
Proof.
  apply live_wiped; unfold safer_desc, bc_create, bc_recreate.
  - unfold safer_create. intros r key s H. unstrip H. unfold safer_wiped. now rewrite (safer_setup_r _ _ _ _ H).
  - unfold safer_recreate. intros s r key s' H. same H E. unfold safer_wiped. now rewrite (safer_setup_r _ _ _ _ H), <- E.
Qed.
Lemma gost_all_wiped sb : block_wiped (gost_desc sb) gost_alloc gost_wiped.
Proof.
  apply live_wiped; unfold gost_desc, bc_create, bc_recreate.
  - unfold gost_create. intros r key s H. unstrip H. apply Ok_inj in H. now subst s.
  - unfold gost_recreate. intros s r key s' H. same H E. apply Ok_inj in H. subst s'. unfold gost_wiped. now rewrite <- E.
Qed.
Lemma trax_all_wiped p sh : block_wiped (trax_desc p) (trax_alloc p sh) (trax_wiped sh).
Proof.
  apply live_wiped; unfold trax_desc, bc_create, bc_recreate.
  - unfold trax_create. intros r key s H. unstrip H. apply Ok_inj in H. now subst s.
  - unfold trax_recreate. intros s r key s' H. same H E. apply Ok_inj in H. subst s'. unfold trax_wiped. now rewrite <- E.
Qed.
Lemma simon_all_wiped p sh : block_wiped (simon_desc p) (simon_alloc p sh) (simon_wiped sh).
Proof.
  apply live_wiped; unfold simon_desc, bc_create, bc_recreate.
  - unfold simon_create. intros r key s H. unstrip H. apply Ok_inj in H. now subst s.
  - unfold simon_recreate. intros s r key s' H. same H E. apply Ok_inj in H. subst s'. unfold simon_wiped. now rewrite <- E.
Qed.
Lemma speck_setup_r p r key s : speck_setup p r key = Ok s -> speck_rounds s = r.
Proof. unfold speck_setup. cbv zeta. intros H. apply bind_ok in H. destruct H as ((a & b) & _ & H). apply Ok_inj in H. now subst s. Qed.
Lemma speck_all_wiped p sh : block_wiped (speck_desc p) (speck_alloc p sh) (speck_wiped sh).
Proof.
  apply live_wiped; unfold speck_desc, bc_create, bc_recreate.
  - unfold speck_create. intros r key s H. unstrip H. unfold speck_wiped. now rewrite (speck_setup_r _ _ _ _ H).
  - unfold speck_recreate. intros s r key s' H. same H E. unfold speck_wiped. now rewrite (speck_setup_r _ _ _ _ H), <- E.
Qed.
Lemma rj_setup_r bs r key s : rj_setup bs r key = Ok s -> rj_r s = r.
Proof. unfold rj_setup. intros H. apply bind_ok in H. destruct H as (k & _ & H). apply Ok_inj in H. now subst s. Qed.
Lemma rijndael128_all_wiped : block_wiped rijndael128_desc (rj_alloc 10 5) (rj_wiped 5).
Proof.
  apply live_wiped; unfold rijndael128_desc, bc_create, bc_recreate.
  - unfold rijndael128_create, rj_create. intros r key s H. unstrip H. unfold rj_wiped. now rewrite (rj_setup_r _ _ _ _ H).
  - unfold rijndael128_recreate, rj_recreate. intros s r key s' H. same H E. unfold rj_wiped. now rewrite (rj_setup_r _ _ _ _ H), <- E.
Qed.
Lemma rijndael256_all_wiped : block_wiped rijndael256_desc (rj_alloc 14 6) (rj_wiped 6).
Proof.
  apply live_wiped; unfold rijndael256_desc, bc_create, bc_recreate.
  - unfold rijndael256_create, rj_create. intros r key s H. unstrip H. unfold rj_wiped. now rewrite (rj_setup_r _ _ _ _ H).
  - unfold rijndael256_recreate, rj_recreate. intros s r key s' H. same H E. unfold rj_wiped. now rewrite (rj_setup_r _ _ _ _ H), <- E.
Qed.
