(** C48: ciphers with S-boxes compute the published algorithms. *)
From Coq Require Import String.
From Coq Require Import NArith Arith List Bool.
From Verif Require Import Lib.Res Lib.Bytes Lib.Hex Spec.Block Spec.Arx Spec.DesPub Spec.Pub1 Model.BlockApi Model.Ciphers Proof.DesPubP
  Proof.Sm4PubP Proof.SeedPubP Proof.SkipjackPubP Proof.Shacal2PubP.
Import ListNotations.
Local Open Scope string_scope.
Local Open Scope N_scope.

(** DES with keys up to 8 bytes, and triple DES with two or three keys *)
Theorem C48_des : is_cipher des_desc (up_to 24) des_cipher.
Proof. exact des_published. Qed.
Print Assumptions C48_des.
Example C48_des_ex : des_cipher (hex "133457799bbcdff1") (hex "0123456789abcdef") = hex "85e813540f0ab405".
Proof. vm_compute. reflexivity. Qed.

Theorem C48_sm4 : is_cipher sm4_desc (up_to 16) sm4_cipher.
Proof. exact sm4_published. Qed.
Print Assumptions C48_sm4.
(** the first example of the standard *)
Example C48_sm4_ex : sm4_cipher (hex "0123456789abcdeffedcba9876543210") (hex "0123456789abcdeffedcba9876543210") = hex "681edf34d206965e86b3e94f536e4246".
Proof. vm_compute. reflexivity. Qed.

Theorem C48_seed : is_cipher seed_desc (up_to 16) seed_cipher.
Proof. exact seed_published. Qed.
Print Assumptions C48_seed.
(** RFC 4269, B.1 *)
Example C48_seed_ex : seed_cipher (repeat 0 16) (hex "000102030405060708090a0b0c0d0e0f") = hex "5ebac6e0054e166819aff1cc6d346cdb".
Proof. vm_compute. reflexivity. Qed.

Theorem C48_skipjack : is_cipher skipjack_desc (up_to 10) skipjack_cipher.
Proof. exact skipjack_published. Qed.
Print Assumptions C48_skipjack.
(** the example of the specification, with the strings reversed *)
Example C48_skipjack_ex : rev (skipjack_cipher (rev (hex "00998877665544332211")) (rev (hex "33221100ddccbbaa"))) = hex "2587cae27a12d300".
Proof. vm_compute. reflexivity. Qed.

Theorem C48_shacal2 : is_cipher shacal2_desc (up_to 64) shacal2_cipher.
Proof. exact shacal2_published. Qed.
Print Assumptions C48_shacal2.
(** NESSIE, set 1, vector 0 *)
Example C48_shacal2_ex : shacal2_cipher [0x80] (repeat 0 32) = hex "361ab6322fa9e7a7bb23818d839e01bddafdf47305426edd297aedb9f6202bae".
Proof. vm_compute. reflexivity. Qed.
