(** HMAC (RFC 2104): [B] is the block size of the hash [H] in bytes. *)
From Coq Require Import NArith Arith List Bool.
From Verif Require Import Lib.Bytes Spec.Words Spec.Modes.
Import ListNotations.
Local Open Scope N_scope.

(** RFC 2104 section 2: keys longer than [B] bytes are hashed first; zeros are put behind the key up to [B] bytes *)
Definition hmac_key (B : nat) (H : list N -> list N) (key : list N) : list N := if (length key <=? B)%nat then key else H key.
Definition pad_key (B : nat) (c : N) (K : list N) : list N := xor_bytes (zero_pad B K) (repeat c B).
Definition ipad : N := 0x36.
Definition opad : N := 0x5C.
Definition hmac (B : nat) (H : list N -> list N) (key m : list N) : list N :=
  let K := hmac_key B H key in H (pad_key B opad K ++ H (pad_key B ipad K ++ m)).
(** [H] gives at least [n] bytes *)
Definition digests (n : nat) (okm : nat -> Prop) (H : list N -> list N) : Prop :=
  forall m, bytes_ok m -> okm (length m) -> bytes_ok (H m) /\ (n <= length (H m))%nat.
