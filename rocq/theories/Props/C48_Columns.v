(** C48: bit-sliced ciphers, RC2 and CRAX compute the published algorithms. *)
From Coq Require Import String.
From Coq Require Import NArith Arith List Bool.
From Verif Require Import Lib.Res Lib.Bytes Lib.Hex Spec.Block Spec.Arx Spec.Pub2 Model.BlockApi Model.Ciphers Proof.ColumnsP
  Proof.SerpentPubP Proof.RectanglePubP Proof.WayPubP Proof.Rc2PubP.
Import ListNotations.
Local Open Scope string_scope.
Local Open Scope N_scope.

Theorem C48_serpent : is_cipher serpent_desc (up_to 32) serpent_cipher.
Proof. exact serpent_published. Qed.
Print Assumptions C48_serpent.
(** an example with a key of 128 bits, which is padded *)
Example C48_serpent_ex : serpent_cipher (hex "000102030405060708090a0b0c0d0e0f") (hex "000102030405060708090a0b0c0d0e0f")
  = hex "4c7d8a328072a22c823e4a1f3acda16d".
Proof. vm_compute. reflexivity. Qed.

Theorem C48_noekeon : is_cipher noekeon_desc (up_to 16) noekeon_cipher.
Proof. exact noekeon_published. Qed.
Print Assumptions C48_noekeon.
Example C48_noekeon_ex : noekeon_cipher (repeat 0 16) (repeat 0 16) = hex "b1656851699e29fa24b70148503d2dfc".
Proof. vm_compute. reflexivity. Qed.

Theorem C48_rectangle : is_cipher rectangle_desc (up_to 16) rectangle_cipher.
Proof. exact rectangle_published. Qed.
Print Assumptions C48_rectangle.
Example C48_rectangle_ex : rectangle_cipher (repeat 0 10) (repeat 0 8) = hex "2d96e354e8b10874".
Proof. vm_compute. reflexivity. Qed.

Theorem C48_threeway : is_cipher threeway_desc (up_to 12) threeway_cipher.
Proof. exact threeway_published. Qed.
Print Assumptions C48_threeway.
Example C48_threeway_ex : threeway_cipher (repeat 0 12) (hex "000000010000000100000001") = hex "4059c76e83ae9dc4ad21ecf7".
Proof. vm_compute. reflexivity. Qed.

Theorem C48_rc2 : is_cipher rc2_desc (up_to 128) rc2_cipher.
Proof. exact rc2_published. Qed.
Print Assumptions C48_rc2.
(** RFC 2268, section 5 *)
Example C48_rc2_ex : rc2_cipher (hex "88bca90e90875a7f0f79c384627bafb2") (repeat 0 8) = hex "2269552ab0f85ca6".
Proof. vm_compute. reflexivity. Qed.

Theorem C48_crax : is_cipher crax_desc (up_to 16) crax_cipher.
Proof. exact crax_published. Qed.
Print Assumptions C48_crax.
Example C48_crax_ex : exists s, bc_create crax_desc 0 (hex "0001020304") = Ok s.
Proof. eexists. reflexivity. Qed.
