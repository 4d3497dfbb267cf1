(** Splitting and reuse follow from what the hashes compute. *)
From Coq Require Import NArith Arith List Lia.
From Verif Require Import Lib.Res Lib.Bytes Spec.Hash Spec.Hashes Spec.Sha2 Model.HashApi Model.Sha1 Model.Md5 Model.Sha2 Model.Tiger Model.Whirlpool Model.Blake Model.Keccak
  Proof.MdP Proof.Sha1P Proof.Sha2P Proof.TigerP Proof.WhirlpoolP Proof.BlakeP Proof.Blake2P Proof.KeccakP.
Import ListNotations.
Local Open Scope N_scope.

Lemma use_cap d r salt n cap okm : hash_use d r salt n cap okm -> (n <= cap)%nat.
Proof. intros []; lia. Qed.
Lemma small_rounds (f : N -> nat) m r : forallb (fun i => Nat.leb (f (N.of_nat i)) m) (seq 0 (S m)) = true -> r <= N.of_nat m -> (f r <= m)%nat.
Proof.
  intros H Hr. rewrite forallb_forall in H. specialize (H (N.to_nat r)). rewrite N2Nat.id in H. apply Nat.leb_le, H. apply in_seq. lia.
Qed.
Lemma use_computes d r salt n cap okm : hash_use d r salt n cap okm -> exists H, computes d r salt n cap okm H.
Proof.
  intros []; eexists.
  - apply sha2_256_computes; [assumption|]. apply (small_rounds rounds32 128); [vm_compute; reflexivity|assumption].
  - apply sha2_512_computes; [assumption|]. apply (small_rounds rounds64 160); [vm_compute; reflexivity|assumption].
  - now apply sha1_computes.
  - now apply md5_computes.
  - now apply tiger_computes.
  - now apply whirlpool_computes.
  - now apply blake256_computes.
  - now apply blake512_computes.
  - now apply blake2s_computes.
  - now apply blake2b_computes.
  - now apply keccak1600_computes.
  - now apply keccak800_computes.
  - now apply sha3_computes.
Qed.
Section From.
  Variables (d : hash) (r : N) (salt : list N) (n cap : nat) (okm : nat -> Prop) (H : list N -> list N).
  Hypothesis C : computes d r salt n cap okm H.
  Lemma from_input : input_split_free d r salt n cap okm.
  Proof.
    intros parts lens Hb Ho Hl. exists (firstn (list_sum lens) (H (concat parts))). split.
    - assert (E : concat [concat parts] = concat parts) by apply app_nil_r. rewrite <- E at 2.
      apply (C [concat parts]); [|now rewrite E|exact Hl]. constructor; [|constructor]. clear - Hb. induction Hb; [constructor|]. apply Forall_app. split; assumption.
    - now apply C.
  Qed.
  Lemma from_output : output_split_free d r salt n cap okm.
  Proof.
    intros parts lens Hb Ho Hl. exists (firstn (list_sum lens) (H (concat parts))). split; [|now apply C].
    assert (E : list_sum [list_sum lens] = list_sum lens) by apply Nat.add_0_r. rewrite <- E at 2. apply (C parts); [assumption..|]. now rewrite E.
  Qed.
  Lemma from_reuse : (n <= cap)%nat -> reuse_free d r salt n cap okm.
  Proof.
    intros Hn parts Hb Ho. destruct (C parts Hb Ho) as [K A]. split.
    - intros lens s Hl. exists (firstn (list_sum lens) (H (concat parts))). split; now apply K.
    - exists (firstn n (H (concat parts))). split; [|exact A]. assert (E : list_sum [n] = n) by apply Nat.add_0_r. destruct (K [n]) as [K1 _]; [now rewrite E|]. now rewrite K1, E.
  Qed.
End From.
Theorem use_input d r salt n cap okm : hash_use d r salt n cap okm -> input_split_free d r salt n cap okm.
Proof. intros U. destruct (use_computes _ _ _ _ _ _ U) as [H C]. exact (from_input _ _ _ _ _ _ H C). Qed.
Theorem use_output d r salt n cap okm : hash_use d r salt n cap okm -> output_split_free d r salt n cap okm.
Proof. intros U. destruct (use_computes _ _ _ _ _ _ U) as [H C]. exact (from_output _ _ _ _ _ _ H C). Qed.
Theorem use_reuse d r salt n cap okm : hash_use d r salt n cap okm -> reuse_free d r salt n cap okm.
Proof. intros U. destruct (use_computes _ _ _ _ _ _ U) as [H C]. exact (from_reuse _ _ _ _ _ _ H C (use_cap _ _ _ _ _ _ U)). Qed.
