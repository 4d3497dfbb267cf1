(** C27: Keccak and SHA-3.  [computes] (Spec/Hash.v) covers every splitting of message and output, recreate and hash_all. *)
From Coq Require Import String.
From Coq Require Import NArith Arith List Bool.
From Verif Require Import Lib.Res Lib.Hex Lib.Bytes Spec.Words Spec.Modes Spec.Hash Spec.Keccak Model.HashApi Model.Keccak Proof.KeccakP.
Import ListNotations.
Local Open Scope string_scope.
Local Open Scope N_scope.

(** With default rounds: the sponge over Keccak-f[1600] with rate 200 - 2 n; any number of bytes can be read ... *)
Theorem C27_keccak1600 n cap : (n < 100)%nat -> (n <= cap)%nat ->
  computes hash_keccak1600 0 [] n cap (fun _ => True) (keccak1600_sponge n cap).
Proof. exact (keccak1600_computes 0 n cap (N.le_0_l 48)). Qed.
(** ... and for SHA-3 up to 64. *)
Theorem C27_sha3 n : (n <= 64)%nat ->
  computes hash_sha3 0 [] n 64 (fun _ => True) (sponge keccak_f1600 200 (200 - 2 * n) 0x06 64).
Proof. exact (sha3_computes 0 n (N.le_0_l 48)). Qed.
(** the FIPS 202 functions *)
Theorem C27_sha3_digest n m : (n <= 64)%nat -> bytes_ok m -> hash_all hash_sha3 0 [] m n = Ok (sha3 n m).
Proof. exact (sha3_digest n m). Qed.
(** every number of rounds up to the size of the table of constants *)
Theorem C27_keccak1600_rounds r n cap : r <= 48 -> (n < 100)%nat -> (n <= cap)%nat ->
  computes hash_keccak1600 r [] n cap (fun _ => True) (sponge (keccak_bytes 8 (round_constant 64) (N.to_nat (rounds_of 24 r))) 200 (200 - 2 * n) 1 cap).
Proof. exact (keccak1600_computes r n cap). Qed.
Theorem C27_sha3_rounds r n : r <= 48 -> (n <= 64)%nat ->
  computes hash_sha3 r [] n 64 (fun _ => True) (sponge (keccak_bytes 8 (round_constant 64) (N.to_nat (rounds_of 24 r))) 200 (200 - 2 * n) 6 64).
Proof. exact (sha3_computes r n). Qed.
Print Assumptions C27_keccak1600. Print Assumptions C27_sha3. Print Assumptions C27_sha3_digest. Print Assumptions C27_keccak1600_rounds. Print Assumptions C27_sha3_rounds.
Example C27_case : (32 < 100)%nat /\ (32 <= 1000)%nat /\ bytes_ok [1; 2; 3] /\
  sha3 32 [] = hex "a7ffc6f8bf1ed76651c14756a061d662f580ff4de43b49fa82d80a4b80f8434a" /\
  keccak1600_sponge 32 32 [] = hex "c5d2460186f7233c927e7db2dcc703c0e500b653ca82273b7bfad8045d85a470".
Proof.
  split; [repeat constructor|]. split; [apply Nat.leb_le; reflexivity|]. split; [repeat constructor|]. split; vm_compute; reflexivity.
Qed.

(** What goes wrong outside these bounds: with n = 100 the rate is 0 and the padding is written in front of the state, ... *)
Theorem C27_keccak1600_refuted : hash_all hash_keccak1600 0 [] [] 100 = Err OobWrite.
Proof. vm_compute. reflexivity. Qed.
(** ... more than 48 rounds read past the constants, ... *)
Theorem C27_rounds_refuted : hash_all hash_keccak1600 49 [] [] 32 = Err OobRead.
Proof. vm_compute. reflexivity. Qed.
(** ... and SHA-3 output does not stop at the rate: with n = 64 the bytes from 72 on are those of the capacity (which the
    output must not show) instead of the next permutation, and the fourth piece of 64 bytes is read from behind the state. *)
Theorem C27_sha3_overread_refuted :
  forall S, S = absorb keccak_f1600 72 (repeat 0 200) (keccak_pad 72 0x06 []) ->
  digest hash_sha3 (hash_create hash_sha3 0 [] 64) [[]] [64; 64]%nat = Ok (firstn 128 S) /\
  nth 72 (firstn 128 S) 0 <> nth 0 (keccak_f1600 S) 0 /\
  digest hash_sha3 (hash_create hash_sha3 0 [] 64) [[]] [64; 64; 64; 64]%nat = Err OobRead.
Proof. intros S ->. split; [vm_compute; reflexivity|]. split; [vm_compute; discriminate|]. vm_compute. reflexivity. Qed.

(** keccak800.c is not Keccak-f[800]: it has 20 rounds by default instead of 22, and with 22 rounds other constants. *)
Theorem C27_keccak800_refuted :
  hash_all hash_keccak800 0 [] [] 32 <> Ok (keccak800_sponge 32 32 []) /\ hash_all hash_keccak800 22 [] [] 32 <> Ok (keccak800_sponge 32 32 []).
Proof. split; vm_compute; discriminate. Qed.
(** It is the sponge over the permutation with the two halves of the 64 bit constants added. *)
Theorem C27_keccak800 r n cap : r <= 40 -> (n < 50)%nat -> (n <= cap)%nat ->
  computes hash_keccak800 r [] n cap (fun _ => True) (sponge (keccak_bytes 4 folded_constant (N.to_nat (rounds_of 20 r))) 100 (100 - 2 * n) 1 cap).
Proof. exact (keccak800_computes r n cap). Qed.
Print Assumptions C27_keccak1600_refuted. Print Assumptions C27_rounds_refuted. Print Assumptions C27_sha3_overread_refuted.
Print Assumptions C27_keccak800_refuted. Print Assumptions C27_keccak800.
