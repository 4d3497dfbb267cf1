(** The arguments with which the hashes of the library work, for the properties that hold for all of them alike:
    round number, salt, digest length, number of bytes that can be read, message lengths.  Skein is treated apart. *)
From Coq Require Import NArith Arith List.
From Verif Require Import Lib.Res Lib.Bytes Model.HashApi Model.Sha1 Model.Md5 Model.Sha2 Model.Tiger Model.Whirlpool Model.Blake Model.Keccak.
Import ListNotations.
Local Open Scope N_scope.

Inductive hash_use : hash -> N -> list N -> nat -> nat -> (nat -> Prop) -> Prop :=
| use_sha2_256 r n : r <= 128 -> (n <= 32)%nat -> hash_use hash_sha2_256 r [] n 32 (fun len => N.of_nat len < 2 ^ 61)
| use_sha2_512 r n : r <= 160 -> (n <= 64)%nat -> hash_use hash_sha2_512 r [] n 64 (fun len => N.of_nat len < 2 ^ 125)
| use_sha1 n : (n <= 20)%nat -> hash_use hash_sha1 0 [] n 20 (fun len => N.of_nat len < 2 ^ 61)
| use_md5 r n : (n <= 16)%nat -> hash_use hash_md5 r [] n 16 (fun len => N.of_nat len < 2 ^ 61)
| use_tiger r n : (n <= 24)%nat -> hash_use hash_tiger r [] n 24 (fun len => N.of_nat len < 2 ^ 61)
| use_whirlpool r n : r < 10 -> (n <= 64)%nat -> hash_use hash_whirlpool r [] n 64 (fun len => N.of_nat len < 2 ^ 253)
| use_blake256 r salt n : bytes_ok salt -> (length salt <= 16)%nat -> (1 <= n <= 32)%nat -> hash_use hash_blake256 r salt n 32 (fun len => 8 * N.of_nat len < 2 ^ 64)
| use_blake512 r salt n : bytes_ok salt -> (length salt <= 32)%nat -> (1 <= n <= 64)%nat -> hash_use hash_blake512 r salt n 64 (fun len => 8 * N.of_nat len < 2 ^ 128)
| use_blake2s r salt n : bytes_ok salt -> (length salt <= 8)%nat -> (n <= 32)%nat -> hash_use hash_blake2s r salt n 32 (fun len => N.of_nat len < 2 ^ 64)
| use_blake2b r salt n : bytes_ok salt -> (length salt <= 16)%nat -> (n <= 64)%nat -> hash_use hash_blake2b r salt n 64 (fun len => N.of_nat len < 2 ^ 128)
| use_keccak1600 r n cap : r <= 48 -> (n < 100)%nat -> (n <= cap)%nat -> hash_use hash_keccak1600 r [] n cap (fun _ => True)
| use_keccak800 r n cap : r <= 40 -> (n < 50)%nat -> (n <= cap)%nat -> hash_use hash_keccak800 r [] n cap (fun _ => True)
| use_sha3 r n : r <= 48 -> (n <= 64)%nat -> hash_use hash_sha3 r [] n 64 (fun _ => True).
