(** C52: two different messages with the same digest show a collision inside the hash (BLAKE, BLAKE2, Keccak, SHA-3).
    [collision_in] (Spec/Collision.v): the compression function is given two different inputs with the same result in the course of
    the two computations.  The library leaves out BLAKE's rule for the counter and ends BLAKE2 with one block more than the
    standard has (C28, C29): that costs nothing here. *)
From Coq Require Import String NArith Arith List Bool.
From Verif Require Import Lib.Res Lib.Bytes Spec.Words Spec.Modes Spec.Hash Spec.Sha2 Spec.Blake Spec.Keccak Spec.Collision Model.HashApi Model.Blake Model.Keccak
  Proof.HashCollP Proof.HaifaP Proof.SpongeCollP.
Import ListNotations.
Local Open Scope N_scope.
Local Notation length := List.length.

Theorem C52_blake256 r salt m m' : bytes_ok salt -> (length salt <= 16)%nat -> bytes_ok m -> bytes_ok m' -> below (2 ^ 61) (length m) -> below (2 ^ 61) (length m') -> m <> m' ->
  hash_all hash_blake256 r salt m 32 = hash_all hash_blake256 r salt m' 32 ->
  collision_in (blake_step fb256 (rounds_or 14 r) (salt_words 4 salt)) iv256 (blake_inputs fb256 1 m) (blake_inputs fb256 1 m').
Proof. exact (blake256_collides r salt m m'). Qed.
Theorem C52_blake512 r salt m m' : bytes_ok salt -> (length salt <= 32)%nat -> bytes_ok m -> bytes_ok m' -> below (2 ^ 125) (length m) -> below (2 ^ 125) (length m') -> m <> m' ->
  hash_all hash_blake512 r salt m 64 = hash_all hash_blake512 r salt m' 64 ->
  collision_in (blake_step fb512 (rounds_or 16 r) (salt_words 8 salt)) iv512 (blake_inputs fb512 1 m) (blake_inputs fb512 1 m').
Proof. exact (blake512_collides r salt m m'). Qed.
Theorem C52_blake2s r salt m m' : bytes_ok salt -> (length salt <= 8)%nat -> bytes_ok m -> bytes_ok m' -> below (2 ^ 64) (length m) -> below (2 ^ 64) (length m') -> m <> m' ->
  hash_all hash_blake2s r salt m 32 = hash_all hash_blake2s r salt m' 32 ->
  collision_in (blake2_step fb2s (rounds_or 10 r) iv256) (blake2_start fb2s iv256 salt 32) (blake2_inputs fb2s m) (blake2_inputs fb2s m').
Proof. exact (blake2s_collides r salt m m'). Qed.
Theorem C52_blake2b r salt m m' : bytes_ok salt -> (length salt <= 16)%nat -> bytes_ok m -> bytes_ok m' -> below (2 ^ 128) (length m) -> below (2 ^ 128) (length m') -> m <> m' ->
  hash_all hash_blake2b r salt m 64 = hash_all hash_blake2b r salt m' 64 ->
  collision_in (blake2_step fb2b (rounds_or 12 r) iv512) (blake2_start fb2b iv512 salt 64) (blake2_inputs fb2b m) (blake2_inputs fb2b m').
Proof. exact (blake2b_collides r salt m m'). Qed.
Print Assumptions C52_blake256. Print Assumptions C52_blake512. Print Assumptions C52_blake2s. Print Assumptions C52_blake2b.

(** Sponges.  The blocks tell the message and whether it was padded for Keccak (1) or for SHA-3 (6) ... *)
Theorem C52_keccak_pad rate dom dom' m m' : (0 < rate)%nat -> dom <> 0 -> dom' <> 0 ->
  blocks rate (keccak_pad rate dom m) = blocks rate (keccak_pad rate dom' m') -> m = m' /\ dom = dom'.
Proof. exact (keccak_blocks_inj rate dom dom' m m'). Qed.
(** ... and two messages with the same digest of any length give a collision on the way, a return to the first state or two last states with the same output. *)
Theorem C52_sha3 r n m m' : r <= 48 -> (n <= 64)%nat -> bytes_ok m -> bytes_ok m' -> m <> m' -> hash_all hash_sha3 r [] m n = hash_all hash_sha3 r [] m' n ->
  sponge_collision (keccak_bytes 8 (round_constant 64) (rounds_or 24 r)) 200 (200 - 2 * n) n 6 m m'.
Proof. exact (sha3_equal r n m m'). Qed.
Theorem C52_keccak1600 r n m m' : r <= 48 -> (n < 100)%nat -> bytes_ok m -> bytes_ok m' -> m <> m' -> hash_all hash_keccak1600 r [] m n = hash_all hash_keccak1600 r [] m' n ->
  sponge_collision (keccak_bytes 8 (round_constant 64) (rounds_or 24 r)) 200 (200 - 2 * n) n 1 m m'.
Proof. exact (keccak1600_equal r n m m'). Qed.
Theorem C52_keccak800 r n m m' : r <= 40 -> (n < 50)%nat -> bytes_ok m -> bytes_ok m' -> m <> m' -> hash_all hash_keccak800 r [] m n = hash_all hash_keccak800 r [] m' n ->
  sponge_collision (keccak_bytes 4 folded_constant (rounds_or 20 r)) 100 (100 - 2 * n) n 1 m m'.
Proof. exact (keccak800_equal r n m m'). Qed.
Print Assumptions C52_keccak_pad. Print Assumptions C52_sha3. Print Assumptions C52_keccak1600. Print Assumptions C52_keccak800.
(** Messages with the same digest of one byte.  For the full digests of BLAKE and BLAKE2 none are known. *)
Example C52_pair : hash_all hash_keccak1600 0 [] [] 1 = hash_all hash_keccak1600 0 [] [212; 0] 1 /\ hash_all hash_sha3 0 [] [] 1 = hash_all hash_sha3 0 [] [246; 1] 1 /\
  keccak_pad 198 1 [] <> keccak_pad 198 1 [212; 0].
Proof. split; [vm_compute; reflexivity|]. split; [vm_compute; reflexivity|]. discriminate. Qed.
(** the inputs of BLAKE2s for a message of one block: the block, and one more of zeros with the flag *)
Example C52_inputs : blake2_inputs fb2s (repeat 7 64) = [(repeat 7 64, 64, false); (repeat 0 64, 64, true)] /\
  map snd (blake_inputs fb256 1 (repeat 7 64)) = [512; 512].
Proof. split; vm_compute; reflexivity. Qed.
