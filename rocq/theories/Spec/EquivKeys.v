(** Keys that are not independent: equivalent keys, keys that undo each other, keys whose ciphers differ by flipped bits. *)
From Coq Require Import NArith Arith List Bool.
From Verif Require Import Lib.Res Lib.Bytes Spec.Modes Model.BlockApi.
Import ListNotations.
Local Open Scope N_scope.

(** [k] and [k'] give the same cipher: both can be set, and every block has one ciphertext, which both decrypt. *)
Definition same_cipher (c : bcipher) (r : N) (k k' : list N) : Prop :=
  exists s s', bc_create c r k = Ok s /\ bc_create c r k' = Ok s' /\
    forall b, blk (bc_bs c) b -> exists y, blk (bc_bs c) y /\
      bc_enc c s b = Ok y /\ bc_enc c s' b = Ok y /\ bc_dec c s y = Ok b /\ bc_dec c s' y = Ok b.
(** Encryption with [k'] undoes encryption with [k]. *)
Definition undone_by (c : bcipher) (k k' : list N) : Prop :=
  exists s s', bc_create c 0 k = Ok s /\ bc_create c 0 k' = Ok s' /\
    forall b, blk (bc_bs c) b -> exists y, blk (bc_bs c) y /\ bc_enc c s b = Ok y /\ bc_enc c s' y = Ok b.
(** With [k'] in place of [k], flipping the bits [m] of the block flips the bits [m] of the result. *)
Definition flips (c : bcipher) (m k k' : list N) : Prop :=
  exists s s', bc_create c 0 k = Ok s /\ bc_create c 0 k' = Ok s' /\
    forall b, blk (bc_bs c) b -> exists y, blk (bc_bs c) y /\ bc_enc c s b = Ok y /\ bc_enc c s' (xor_bytes b m) = Ok (xor_bytes y m) /\
      bc_dec c s' (xor_bytes y m) = Ok (xor_bytes b m).

(** DES keys: equal but for the lowest bit of every byte *)
Definition same_but_parity (k k' : list N) : Prop := map (fun x => x / 2) k = map (fun x => x / 2) k'.
(** the four weak keys and the six pairs of semi-weak keys of DES, with odd parity (SP 800-67, 3.3.2) *)
Definition des_weak : list N := [0x0101010101010101; 0xFEFEFEFEFEFEFEFE; 0xE0E0E0E0F1F1F1F1; 0x1F1F1F1F0E0E0E0E].
Definition des_semiweak : list (N * N) :=
  [(0x011F011F010E010E, 0x1F011F010E010E01); (0x01E001E001F101F1, 0xE001E001F101F101); (0x01FE01FE01FE01FE, 0xFE01FE01FE01FE01);
   (0x1FE01FE00EF10EF1, 0xE01FE01FF10EF10E); (0x1FFE1FFE0EFE0EFE, 0xFE1FFE1FFE0EFE0E); (0xE0FEE0FEF1FEF1FE, 0xFEE0FEE0FEF1FEF1)].
(** the string [l] [n] times *)
Definition times (n : nat) (l : list N) : list N := concat (repeat l n).
