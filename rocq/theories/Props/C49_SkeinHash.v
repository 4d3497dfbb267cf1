(** C49: the Skein hashes and Skein 1.3 (Spec/Skein.v). *)
From Coq Require Import String.
From Coq Require Import NArith Arith List Bool.
From Verif Require Import Lib.Res Lib.Hex Lib.Bytes Spec.Words Spec.Modes Spec.Arx Spec.Hash Spec.Skein Model.HashApi Model.Threefish Model.Skein Proof.SkeinHashP.
Import ListNotations.
Local Open Scope string_scope.
Local Open Scope N_scope.

(** Digests of the block size, without salt, of messages that are empty or not a whole number of blocks, are Skein's. *)
Theorem C49_skein256 : computes_once (skein_hash threefish256) 0 [] 32 (fun len => N.of_nat len < 2 ^ 96 /\ (len mod 32 <> 0 \/ len = 0)%nat) (skein256 [] 32).
Proof. exact (skein_is threefish256 threefish256_cipher (or_introl eq_refl) spec256). Qed.
Theorem C49_skein512 : computes_once (skein_hash threefish512) 0 [] 64 (fun len => N.of_nat len < 2 ^ 96 /\ (len mod 64 <> 0 \/ len = 0)%nat) (skein512 [] 64).
Proof. exact (skein_is threefish512 threefish512_cipher (or_intror (or_introl eq_refl)) spec512). Qed.
Theorem C49_skein1024 : computes_once (skein_hash threefish1024) 0 [] 128 (fun len => N.of_nat len < 2 ^ 96 /\ (len mod 128 <> 0 \/ len = 0)%nat) (skein1024 [] 128).
Proof. exact (skein_is threefish1024 threefish1024_cipher (or_intror (or_intror eq_refl)) spec1024). Qed.
(** For every message: the same with a block more after whole blocks. *)
Theorem C49_skein256_all : computes_once (skein_hash threefish256) 0 [] 32 (fun len => N.of_nat len < 2 ^ 96)
  (fun m => skein_n 32 threefish256_cipher (S (List.length m / 32)) [] 32 m).
Proof. exact (skein_computes threefish256 threefish256_cipher (or_introl eq_refl) spec256). Qed.
Theorem C49_skein512_all : computes_once (skein_hash threefish512) 0 [] 64 (fun len => N.of_nat len < 2 ^ 96)
  (fun m => skein_n 64 threefish512_cipher (S (List.length m / 64)) [] 64 m).
Proof. exact (skein_computes threefish512 threefish512_cipher (or_intror (or_introl eq_refl)) spec512). Qed.
Theorem C49_skein1024_all : computes_once (skein_hash threefish1024) 0 [] 128 (fun len => N.of_nat len < 2 ^ 96)
  (fun m => skein_n 128 threefish1024_cipher (S (List.length m / 128)) [] 128 m).
Proof. exact (skein_computes threefish1024 threefish1024_cipher (or_intror (or_intror eq_refl)) spec1024). Qed.
Print Assumptions C49_skein256. Print Assumptions C49_skein512. Print Assumptions C49_skein1024.
Print Assumptions C49_skein256_all. Print Assumptions C49_skein512_all. Print Assumptions C49_skein1024_all.
(** the specification gives the published digest of the empty message *)
Example C49_published : skein256 [] 32 [] = hex "c8877087da56e072870daa843f176e9453115929094c3a40c463a196c29bf7ba".
Proof. vm_compute. reflexivity. Qed.
Example C49_case : N.of_nat 100 < 2 ^ 96 /\ (100 mod 32 <> 0 \/ 100 = 0)%nat.
Proof. split; [reflexivity|]. left. vm_compute. discriminate. Qed.

(** Whole blocks, and other digest lengths, give something else. *)
Theorem C49_blocks_refuted : exists m, List.length m = 32%nat /\ hash_all (skein_hash threefish256) 0 [] m 32 <> Ok (skein256 [] 32 m).
Proof. exists (repeat 0 32). split; [reflexivity|]. vm_compute. discriminate. Qed.
Theorem C49_length_refuted : hash_all (skein_hash threefish256) 0 [] [] 16 <> Ok (skein256 [] 16 []) /\ hash_all (skein_hash threefish256) 0 [] [] 64 <> Ok (skein256 [] 64 []).
Proof. split; vm_compute; discriminate. Qed.
(** The bytes of a salt of up to half a block are not used: only their number matters. *)
Theorem C49_salt_refuted p r salt salt' n : List.length salt = List.length salt' -> (2 * List.length salt <= sk_bs p)%nat ->
  hash_create (skein_hash p) r salt n = hash_create (skein_hash p) r salt' n.
Proof. exact (skein_salt p r salt salt' n). Qed.
Print Assumptions C49_blocks_refuted. Print Assumptions C49_length_refuted. Print Assumptions C49_salt_refuted.
Example C49_salt_case : exists s, hash_create (skein_hash threefish256) 0 [1; 2; 3] 32 = Ok s /\ List.length [1; 2; 3] = List.length [4; 5; 6] /\ (2 * 3 <= sk_bs threefish256)%nat.
Proof. eexists. split; [vm_compute; reflexivity|]. split; [reflexivity|]. apply Nat.leb_le. reflexivity. Qed.
