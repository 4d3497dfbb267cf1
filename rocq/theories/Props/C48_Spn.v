(** C48: Khazad, Anubis and ARIA compute the published algorithms. *)
From Coq Require Import String.
From Coq Require Import NArith Arith List Bool Lia.
From Verif Require Import Lib.Res Lib.Bytes Lib.Hex Spec.Block Spec.Arx Spec.Pub3 Model.BlockApi Model.Ciphers
  Proof.KhazadPubP Proof.AnubisPubP Proof.AriaPubP.
Import ListNotations.
Local Open Scope string_scope.
Local Open Scope N_scope.

Theorem C48_khazad : is_cipher khazad_desc (up_to 16) khazad_cipher.
Proof. exact khazad_published. Qed.
Print Assumptions C48_khazad.
(** the first of the NESSIE test vectors *)
Example C48_khazad_ex : khazad_cipher (hex "80000000000000000000000000000000") (repeat 0 8) = hex "49a4ce32ac190e3f".
Proof. vm_compute. reflexivity. Qed.

Theorem C48_anubis : is_cipher anubis_desc (up_to 40) anubis_cipher.
Proof. exact anubis_published. Qed.
Print Assumptions C48_anubis.
Example C48_anubis_ex : anubis_cipher (repeat 0xfe 16) (repeat 0xfe 16) = hex "6dc5daa2267d626f08b7528e6e6e8690".
Proof. vm_compute. reflexivity. Qed.

(** keys of 17 .. 20 and 25 .. 28 bytes, which RFC 5794 does not know, are left out *)
Theorem C48_aria : is_cipher aria_desc aria_lengths aria_cipher.
Proof. exact aria_published. Qed.
Print Assumptions C48_aria.
(** RFC 5794, A.1, by the model *)
Example C48_aria_ex : aria_cipher (hex "000102030405060708090a0b0c0d0e0f") (hex "00112233445566778899aabbccddeeff")
  = hex "d718fbd6ab644c739da95f3be6451778".
Proof.
  destruct (C48_aria (hex "000102030405060708090a0b0c0d0e0f")) as (s & Es & H); [repeat constructor|unfold aria_lengths; cbn; lia|].
  destruct (H (hex "00112233445566778899aabbccddeeff")) as [E _]; [split; [reflexivity|repeat constructor]|].
  assert (G : match bc_create aria_desc 0 (hex "000102030405060708090a0b0c0d0e0f") with
    | Ok s => match bc_enc aria_desc s (hex "00112233445566778899aabbccddeeff") with Ok c => if list_eq_dec N.eq_dec c (hex "d718fbd6ab644c739da95f3be6451778") then true else false | Err _ => false end
    | Err _ => false end = true) by (vm_compute; reflexivity).
  rewrite Es, E in G. destruct (list_eq_dec _ _ _) as [D|D]; [exact D|discriminate G].
Qed.
