(** C28, C29: BLAKE and BLAKE2.  [computes] (Spec/Hash.v) covers every splitting of message and digest, recreate and hash_all. *)
From Coq Require Import String.
From Coq Require Import NArith Arith List Bool.
From Verif Require Import Lib.Res Lib.Hex Lib.Bytes Spec.Words Spec.Modes Spec.Hash Spec.Sha2 Spec.Blake Model.HashApi Model.Blake Proof.BlakeP Proof.Blake2P.
Import ListNotations.
Local Open Scope string_scope.
Local Open Scope N_scope.

(** C28.  For messages whose last block has message bits, and for the empty message, the digest is BLAKE's ... *)
Theorem C28_blake256 salt n : bytes_ok salt -> (List.length salt <= 16)%nat -> (1 <= n <= 32)%nat ->
  computes hash_blake256 0 salt n 32 (fun len => 8 * N.of_nat len < 2 ^ 64 /\ (len = 0 \/ 1 <= len mod 64 <= 55)%nat) (blake256 salt n).
Proof. exact (blake256_published salt n). Qed.
Theorem C28_blake512 salt n : bytes_ok salt -> (List.length salt <= 32)%nat -> (1 <= n <= 64)%nat ->
  computes hash_blake512 0 salt n 64 (fun len => 8 * N.of_nat len < 2 ^ 128 /\ (len = 0 \/ 1 <= len mod 128 <= 111)%nat) (blake512 salt n).
Proof. exact (blake512_published salt n). Qed.
(** ... and with other lengths it is not: a block without message bits must have the counter 0. *)
Theorem C28_blake256_refuted : exists m m',
  List.length m = 56%nat /\ hash_all hash_blake256 0 [] m 32 <> Ok (blake256 [] 32 m) /\
  List.length m' = 64%nat /\ hash_all hash_blake256 0 [] m' 32 <> Ok (blake256 [] 32 m').
Proof.
  exists (repeat 0 56), (repeat 0 64). split; [reflexivity|]. split; [vm_compute; discriminate|]. split; [reflexivity|]. vm_compute. discriminate.
Qed.
Theorem C28_blake512_refuted : exists m, List.length m = 112%nat /\ hash_all hash_blake512 0 [] m 64 <> Ok (blake512 [] 64 m).
Proof. exists (repeat 0 112). split; [reflexivity|]. vm_compute. discriminate. Qed.
(** For every message and every number of rounds: the function without the rule about the counter 0. *)
Theorem C28_blake256_all r salt n : bytes_ok salt -> (List.length salt <= 16)%nat -> (1 <= n <= 32)%nat ->
  computes hash_blake256 r salt n 32 (fun len => 8 * N.of_nat len < 2 ^ 64) (blake256_r false (N.to_nat (if r =? 0 then 14 else r)) salt n).
Proof. exact (blake256_computes r salt n). Qed.
Theorem C28_blake512_all r salt n : bytes_ok salt -> (List.length salt <= 32)%nat -> (1 <= n <= 64)%nat ->
  computes hash_blake512 r salt n 64 (fun len => 8 * N.of_nat len < 2 ^ 128) (blake512_r false (N.to_nat (if r =? 0 then 16 else r)) salt n).
Proof. exact (blake512_computes r salt n). Qed.
Print Assumptions C28_blake256. Print Assumptions C28_blake512. Print Assumptions C28_blake256_refuted. Print Assumptions C28_blake512_refuted.
Print Assumptions C28_blake256_all. Print Assumptions C28_blake512_all.
(** the specification gives the published digests of the empty message and of one zero byte *)
Example C28_published : blake256 [] 32 [] = hex "716f6e863f744b9ac22c97ec7b76ea5f5908bc5b2f67c61510bfc4751384ea7a" /\
  blake256 [] 32 [0] = hex "0ce8d4ef4dd7cd8d62dfded9d4edb0a774ae6a41929a74da23109e8f11139c87".
Proof. split; vm_compute; reflexivity. Qed.
Example C28_case : bytes_ok [1; 2; 3] /\ (8 * N.of_nat 100 < 2 ^ 64 /\ (100 = 0 \/ 1 <= 100 mod 64 <= 55)%nat).
Proof. split; [repeat constructor|]. split; [reflexivity|]. right. vm_compute. split; repeat constructor. Qed.

(** C29.  The digest is that of RFC 7693 unless the message is a positive number of whole blocks ... *)
Theorem C29_blake2s salt n : bytes_ok salt -> (List.length salt <= 8)%nat -> (n <= 32)%nat ->
  computes hash_blake2s 0 salt n 32 (fun len => N.of_nat len < 2 ^ 64 /\ (len = 0 \/ len mod 64 <> 0)%nat) (blake2s salt n).
Proof. exact (blake2s_published salt n). Qed.
Theorem C29_blake2b salt n : bytes_ok salt -> (List.length salt <= 16)%nat -> (n <= 64)%nat ->
  computes hash_blake2b 0 salt n 64 (fun len => N.of_nat len < 2 ^ 128 /\ (len = 0 \/ len mod 128 <> 0)%nat) (blake2b salt n).
Proof. exact (blake2b_published salt n). Qed.
(** ... in which case it differs. *)
Theorem C29_blake2s_refuted : exists m, List.length m = 64%nat /\ hash_all hash_blake2s 0 [] m 32 <> Ok (blake2s [] 32 m).
Proof. exists (repeat 0 64). split; [reflexivity|]. vm_compute. discriminate. Qed.
Theorem C29_blake2b_refuted : exists m, List.length m = 128%nat /\ hash_all hash_blake2b 0 [] m 64 <> Ok (blake2b [] 64 m).
Proof. exists (repeat 0 128). split; [reflexivity|]. vm_compute. discriminate. Qed.
(** For every message and number of rounds: RFC 7693 with a block added after whole blocks. *)
Theorem C29_blake2s_all r salt n : bytes_ok salt -> (List.length salt <= 8)%nat -> (n <= 32)%nat ->
  computes hash_blake2s r salt n 32 (fun len => N.of_nat len < 2 ^ 64) (blake2s_r (extra_block 64) (N.to_nat (if r =? 0 then 10 else r)) salt n).
Proof. exact (blake2s_computes r salt n). Qed.
Theorem C29_blake2b_all r salt n : bytes_ok salt -> (List.length salt <= 16)%nat -> (n <= 64)%nat ->
  computes hash_blake2b r salt n 64 (fun len => N.of_nat len < 2 ^ 128) (blake2b_r (extra_block 128) (N.to_nat (if r =? 0 then 12 else r)) salt n).
Proof. exact (blake2b_computes r salt n). Qed.
Print Assumptions C29_blake2s. Print Assumptions C29_blake2b. Print Assumptions C29_blake2s_refuted. Print Assumptions C29_blake2b_refuted.
Print Assumptions C29_blake2s_all. Print Assumptions C29_blake2b_all.
(** RFC 7693, appendices A and B *)
Example C29_published :
  blake2s [] 32 (ascii_bytes "abc") = hex "508c5e8c327c14e2e1a72ba34eeb452f37458b209ed63a294d999b4c86675982" /\
  blake2b [] 64 (ascii_bytes "abc") = hex "ba80a53f981c4d0d6a2797b69f12f6e94c212f14685ac4b74b12bb6fdbffa2d17d87c5392aab792dc252d5de4533cc9518d38aa8dbf1925ab92386edd4009923".
Proof. split; vm_compute; reflexivity. Qed.
