(** C04: the 128 bit Rijndael of the library is AES. *)
From Coq Require Import NArith Arith List Bool.
From Verif Require Import Lib.Res Lib.Bytes Lib.Hex Spec.Block Spec.Words Spec.Aes Model.BlockApi Model.Rijndael Proof.RijndaelKeyP.
Import ListNotations.
Local Open Scope N_scope.

Theorem C04_aes key : bytes_ok key -> length key = 16%nat \/ length key = 24%nat \/ length key = 32%nat ->
  exists s, rijndael128_create 0 key = Ok s /\
    (forall pt, blk 16 pt -> rijndael128_encrypt s pt = Ok (aes_enc key pt)) /\
    (forall ct, blk 16 ct -> rijndael128_decrypt s ct = Ok (aes_dec key ct)).
Proof. exact (aes_spec key). Qed.
Print Assumptions C04_aes.
(** FIPS 197, appendix C.1 *)
Example C04_fips : aes_enc (map N.of_nat (seq 0 16)) (map (fun i => N.of_nat (17 * i)) (seq 0 16)) =
  [0x69; 0xC4; 0xE0; 0xD8; 0x6A; 0x7B; 0x04; 0x30; 0xD8; 0xCD; 0xB7; 0x80; 0x70; 0xB4; 0xC5; 0x5A].
Proof. vm_compute. reflexivity. Qed.

(** Other key lengths and round counts: Rijndael with the key padded to whole words, as long as there are enough round constants. *)
Theorem C04_rijndael128 r key : let R := rj_rounds 10 r key in key_ok 32 key -> (R + 1) * 2 ^ 5 < 2 ^ 32 -> (4 * (N.to_nat R + 1) <= 52 * rj_n key)%nat ->
  exists s, rijndael128_create r key = Ok s /\
    (forall pt, blk 16 pt -> rijndael128_encrypt s pt = Ok (rijndael_enc 4 (rj_n key) (N.to_nat R) (zero_pad (4 * rj_n key) key) pt)) /\
    (forall ct, blk 16 ct -> rijndael128_decrypt s ct = Ok (rijndael_dec 4 (rj_n key) (N.to_nat R) (zero_pad (4 * rj_n key) key) ct)).
Proof. exact (rijndael128_spec r key). Qed.
Print Assumptions C04_rijndael128.
Theorem C04_rijndael256 r key : let R := rj_rounds 14 r key in key_ok 32 key -> (R + 1) * 2 ^ 6 < 2 ^ 32 -> (8 * (N.to_nat R + 1) <= 52 * rj_n key)%nat ->
  exists s, rijndael256_create r key = Ok s /\
    (forall pt, blk 32 pt -> rijndael256_encrypt s pt = Ok (rijndael_enc 8 (rj_n key) (N.to_nat R) (zero_pad (4 * rj_n key) key) pt)) /\
    (forall ct, blk 32 ct -> rijndael256_decrypt s ct = Ok (rijndael_dec 8 (rj_n key) (N.to_nat R) (zero_pad (4 * rj_n key) key) ct)).
Proof. exact (rijndael256_spec r key). Qed.
Print Assumptions C04_rijndael256.
Definition short_key : list N := [1; 2; 3; 4; 5].
Example C04_premises : key_ok 32 short_key /\ (4 * (N.to_nat (rj_rounds 10 0 short_key) + 1) <= 52 * rj_n short_key)%nat.
Proof.
  assert (K : key_ok 32 short_key) by (split; [unfold short_key; repeat constructor|split; cbn; repeat constructor]).
  split; [exact K|]. exact (proj2 (rijndael128_default_ok short_key K)).
Qed.

(** The array of round constants has 52 entries but the source gives only 51, so a schedule that needs all of them is not Rijndael's. *)
Theorem C04_rcon_refuted : exists s, rijndael128_create 52 (repeat 0 16) = Ok s /\
  rijndael128_encrypt s (repeat 0 16) <> Ok (rijndael_enc 4 4 52 (repeat 0 16) (repeat 0 16)).
Proof. exact rijndael128_rcon. Qed.
Print Assumptions C04_rcon_refuted.
