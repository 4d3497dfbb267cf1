(** C48: SAFER K, SAFER SK, SAFER++, CAST-128, Blowfish and TRAX-L compute the published algorithms. *)
From Coq Require Import String.
From Coq Require Import NArith Arith List Bool Lia.
From Verif Require Import Lib.Res Lib.Bytes Lib.Hex Spec.Block Spec.Arx Spec.Pub6 Spec.Pub7 Spec.Pub8 Spec.Pub9 Model.BlockApi Model.Sparx Model.Ciphers
  Proof.SaferPubP Proof.CastPubP Proof.BlowfishPubP Proof.TraxPubP Kat.BlowfishKat.
Import ListNotations.
Local Open Scope string_scope.
Local Open Scope N_scope.

(** SAFER K with keys of 8 and 16 bytes: 6 and 10 rounds *)
Theorem C48_safer_k : is_cipher (safer_desc false) (sized [8; 16]%nat) (safer_cipher false).
Proof. exact (safer_published false). Qed.
Print Assumptions C48_safer_k.
Example C48_safer_k_ex : safer_cipher false (hex "0807060504030201") (hex "0102030405060708") = hex "c8f29cdd87783ed9".
Proof. apply (is_cipher_kat _ _ _ _ _ _ C48_safer_k); [now left|vm_compute; reflexivity]. Qed.

(** SAFER SK: 8 and 10 rounds and the strengthened schedule *)
Theorem C48_safer_sk : is_cipher (safer_desc true) (sized [8; 16]%nat) (safer_cipher true).
Proof. exact (safer_published true). Qed.
Print Assumptions C48_safer_sk.
Example C48_safer_sk_ex : safer_cipher true (hex "0102030405060708") (hex "0102030405060708") = hex "5fce9ba2058438c7".
Proof. apply (is_cipher_kat _ _ _ _ _ _ C48_safer_sk); [now left|vm_compute; reflexivity]. Qed.
Example C48_safer_sk128_ex : safer_cipher true (hex "01020304050607080000000000000000") (hex "0102030405060708") = hex "ff7811e4b3a72e71".
Proof. apply (is_cipher_kat _ _ _ _ _ _ C48_safer_sk); [right; now left|vm_compute; reflexivity]. Qed.

Theorem C48_saferpp : is_cipher saferpp_desc (sized [16; 32]%nat) saferpp_cipher.
Proof. exact saferpp_published. Qed.
Print Assumptions C48_saferpp.
Example C48_saferpp_ex : saferpp_cipher (repeat 255 16) (repeat 255 16) = hex "302bba9156bbcb2bf6d9c7c07086fb4d".
Proof. apply (is_cipher_kat _ _ _ _ _ _ C48_saferpp); [now left|vm_compute; reflexivity]. Qed.

(** CAST-128 with keys of 1 .. 5 and of 11 .. 16 bytes *)
Theorem C48_cast5 : is_cipher cast5_desc cast_lengths cast_cipher.
Proof. exact cast5_published. Qed.
Print Assumptions C48_cast5.
(** RFC 2144, appendix B.1 *)
Example C48_cast5_ex : cast_cipher (hex "0123456712345678234567893456789a") (hex "0123456789abcdef") = hex "238b4fe5847e44b2".
Proof. vm_compute. reflexivity. Qed.
Example C48_cast5_80_ex : cast_cipher (hex "01234567123456782345") (hex "0123456789abcdef") = hex "eb6a711a2c02271b".
Proof. vm_compute. reflexivity. Qed.
Example C48_cast5_40_ex : cast_cipher (hex "0123456712") (hex "0123456789abcdef") = hex "7ac816d16e9b302e".
Proof. vm_compute. reflexivity. Qed.
(** The S-boxes of RFC 2144 are built from bent functions, so every output bit is 1 for 120 or 136 of the 256 inputs. *)
Definition cast_weight (box : list N) (b : nat) : nat := length (filter (fun y => N.testbit y (N.of_nat b)) box).
Example C48_cast5_boxes_ex :
  forallb (fun box => forallb (fun b => let n := cast_weight box b in Nat.eqb n 120 || Nat.eqb n 136) (seq 0 32))
    [cast_S1; cast_S2; cast_S3; cast_S4; cast_S5; cast_S6; cast_S7; cast_S8] = true.
Proof. vm_compute. reflexivity. Qed.
(** RFC 2144, section 2.5 gives keys of up to 80 bits 12 rounds.  The code uses 12 rounds up to 40 bits only: every
    key of at most 16 bytes gives the RFC's cipher with 12 rounds up to 5 bytes and 16 rounds above, .. *)
Theorem C48_cast5_rounds : is_cipher cast5_desc (up_to 16) (fun key => cast_full (if Nat.leb (length key) 5 then 12 else 16) key).
Proof. exact cast5_rounds. Qed.
Print Assumptions C48_cast5_rounds.
(** .. so the RFC's own vector for an 80-bit key is not reproduced. *)
Theorem C48_cast5_80_refuted : exists key s pt, length key = 10%nat /\ bytes_ok key /\ bc_create cast5_desc 0 key = Ok s /\
  blk 8 pt /\ bc_enc cast5_desc s pt <> Ok (cast_cipher key pt).
Proof. exact cast5_80. Qed.
Print Assumptions C48_cast5_80_refuted.

(** Blowfish: 16 rounds, keys of 1 .. 56 bytes *)
Theorem C48_blowfish : is_cipher blowfish_desc (up_to 56) blowfish_cipher.
Proof. exact blowfish_published. Qed.
Print Assumptions C48_blowfish.
Example C48_blowfish_ex : blowfish_cipher (hex "0123456789ABCDEF") (hex "1111111111111111") = hex "61F9C3802281B096".
Proof.
  refine (is_cipher_kat3 blowfish_desc (up_to 56) blowfish_cipher _ _ _ _ C48_blowfish _ _ _ kblowfish_kat_2).
  - repeat constructor.
  - unfold up_to. change (length (hex "0123456789ABCDEF")) with 8%nat. lia.
  - split; [reflexivity|repeat constructor].
Qed.

(** TRAX-L: 17 steps, keys of 1 .. 32 bytes, tweaks of 0 .. 16 *)
Theorem C48_trax_l : is_trax_cipher trax_l trax_l_cipher.
Proof. exact trax_l_published. Qed.
Print Assumptions C48_trax_l.
(** The vector of the reference code *)
Example C48_trax_l_ex : trax_l_cipher (hex "DF639804132FCCAE5EA5CED29CDBA86DE5FDF0504B2CF05F56808B95D4D8CA96") (hex "44113012F373C1ACEB9CED50EBD4F031")
  (hex "C9992F8038623E86BAF8E54679C6DB9025D38589E4DC47986BE90BB8390B5DD0") = hex "6E60A404845F392624912B842FF3AD8E05CB379BEB557B9F90AA99C6485FCE3B".
Proof. vm_compute. reflexivity. Qed.
