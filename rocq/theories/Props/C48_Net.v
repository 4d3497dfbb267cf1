(** C48: Camellia and Twofish compute the published algorithms. *)
From Coq Require Import String.
From Coq Require Import NArith Arith List Bool Lia.
From Verif Require Import Lib.Res Lib.Bytes Lib.Hex Spec.Block Spec.Arx Spec.Pub4 Spec.Pub5 Model.BlockApi Model.Ciphers
  Proof.CamelliaPubP Proof.TwofishPubP.
Import ListNotations.
Local Open Scope string_scope.
Local Open Scope N_scope.

Theorem C48_camellia : is_cipher camellia_desc camellia_lengths camellia_cipher.
Proof. exact camellia_published. Qed.
Print Assumptions C48_camellia.
(** RFC 3713, appendix A, by the model *)
Example C48_camellia_ex : camellia_cipher (hex "0123456789abcdeffedcba9876543210") (hex "0123456789abcdeffedcba9876543210")
  = hex "67673138549669730857065648eabe43".
Proof.
  destruct (C48_camellia (hex "0123456789abcdeffedcba9876543210")) as (s & Es & H); [repeat constructor|unfold camellia_lengths; cbn; lia|].
  destruct (H (hex "0123456789abcdeffedcba9876543210")) as [E _]; [split; [reflexivity|repeat constructor]|].
  assert (G : match bc_create camellia_desc 0 (hex "0123456789abcdeffedcba9876543210") with
    | Ok s => match bc_enc camellia_desc s (hex "0123456789abcdeffedcba9876543210") with Ok c => if list_eq_dec N.eq_dec c (hex "67673138549669730857065648eabe43") then true else false | Err _ => false end
    | Err _ => false end = true) by (vm_compute; reflexivity).
  rewrite Es, E in G. destruct (list_eq_dec _ _ _) as [D|D]; [exact D|discriminate G].
Qed.

(** keys of 9 .. 32 bytes *)
Theorem C48_twofish : is_cipher twofish_desc twofish_lengths twofish_cipher.
Proof. exact twofish_published. Qed.
Print Assumptions C48_twofish.
Example C48_twofish_ex : twofish_cipher (repeat 0 16) (repeat 0 16) = hex "9f589f5cf6122c32b6bfec2f2ae8c35a".
Proof. vm_compute. reflexivity. Qed.
(** Keys of at most eight bytes, which the paper fills to 128 bits, are used as one group of eight bytes. *)
Theorem C48_twofish_short_refuted : exists key s pt, (0 < length key <= 8)%nat /\ bytes_ok key /\ bc_create twofish_desc 0 key = Ok s /\
  blk 16 pt /\ bc_enc twofish_desc s pt <> Ok (twofish_cipher key pt).
Proof. exact twofish_short. Qed.
Print Assumptions C48_twofish_short_refuted.
