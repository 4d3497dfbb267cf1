(** Chosen round counts of Twofish and ARIA; DES and RC2, whose round count is fixed. *)
From Coq Require Import NArith PArith Arith List Bool Lia.
From Verif Require Import Lib.Word Lib.Res Lib.Bytes Lib.Lists Spec.Words Spec.Block Spec.Cipher Spec.Arx Spec.Pub1 Spec.Pub2 Spec.Pub3 Spec.Pub5 Spec.DesPub Spec.Rounds
  Model.BlockApi Model.Twofish Model.Aria Model.Ciphers
  Lib.WordSpec Proof.CiphersP Proof.TwofishPubP Proof.AriaPubP Proof.DesPubP Proof.Rc2PubP Proof.RoundsP.
Import ListNotations.
Local Open Scope N_scope.

Lemma even_of_nat r : Nat.even r = true -> N.even (N.of_nat r) = true.
Proof. intros H. apply Nat.even_spec in H. destruct H as [m ->]. apply N.even_spec. exists (N.of_nat m). lia. Qed.

Lemma twofish_rounds_any : is_rounds twofish_desc (fun r key => (8 < length key <= 32)%nat /\ Nat.even r = true /\ (r <= 124)%nat) twofish_any.
Proof.
  apply (is_rounds_intro _ _ _ _ twofish_works).
  { intros r key _ [H1 [H2 H3]]. change (bc_maxkey twofish_desc) with 32%nat. split; [lia|]. split; [now apply even_of_nat|].
    apply N.le_lt_trans with 124; [lia|reflexivity]. }
  intros r key s Hb Hr [Hk [He Hr2]] Es pt Hp. change (bc_create twofish_desc) with twofish_create in Es. apply twofish_create_gen in Es.
  unfold twofish_rounds in Es. rewrite pos_eqb in Es by exact Hr. apply Nat.even_spec in He. destruct He as [m ->].
  replace (N.of_nat (2 * m)) with (2 * N.of_nat m) in Es by lia. change (bc_enc twofish_desc) with twofish_encrypt. rewrite Es.
  apply twofish_any_enc; [lia|exact Hb|exact Hk|exact Hp].
Qed.

Lemma aria_rounds_any : is_rounds aria_desc (fun r key => aria_lengths key /\ Nat.even r = true /\ (r <= 16)%nat) aria_any.
Proof.
  apply (is_rounds_intro _ _ _ _ aria_works).
  { intros r key _ [H1 [H2 H3]]. change (bc_maxkey aria_desc) with 32%nat. unfold aria_lengths in H1. split; [lia|]. split; [now apply even_of_nat|].
    apply N.le_lt_trans with 16; [lia|reflexivity]. }
  intros r key s Hb Hr [Hk [He Hr2]] Es pt Hp. change (bc_create aria_desc) with aria_create in Es. apply aria_create_gen in Es.
  unfold aria_rounds in Es. rewrite pos_eqb in Es by exact Hr. change (bc_enc aria_desc) with aria_encrypt. rewrite Es.
  rewrite aria_any_enc by (rewrite ?Nat2N.id; assumption || lia). now rewrite Nat2N.id.
Qed.
Lemma aria_any_std key pt : (length key <= 32)%nat -> aria_any (8 + aria_size (length key) / 4) key pt = aria_cipher key pt.
Proof.
  intros Hk. unfold aria_any, aria_cipher, aria_full, aria_full_any. cbv zeta.
  rewrite length_zero_pad; [reflexivity|]. unfold aria_size. destruct (Nat.leb_spec (length key) 16); [lia|]. destruct (Nat.leb_spec (length key) 24); lia.
Qed.

Lemma des_rounds_any : is_rounds des_desc (fun _ key => (0 < length key <= 24)%nat) (fun _ => des_cipher).
Proof. intros r key Hb _ Hk. exact (des_published key Hb Hk). Qed.
Lemma rc2_rounds_any : is_rounds rc2_desc (fun _ key => (0 < length key <= 128)%nat) (fun _ => rc2_cipher).
Proof. intros r key Hb _ Hk. exact (rc2_published key Hb Hk). Qed.
