(** What the CFB decryption of lib/stream/cfb.c leaves in the output buffer when one call
    is given more than one block.  [old] is what the output buffer held before the call. *)
From Coq Require Import NArith Arith List.
From Verif Require Import Lib.Res Spec.Modes Spec.Leak.
Import ListNotations.

(** the key stream of the last (perhaps incomplete) block stands in place of the first block of
    plaintext; after it the old contents are xored with the ciphertext *)
Definition cfb_dec_leaves (bs : nat) (f : list N -> list N) (iv old ct : list N) : list N :=
  f (chained bs iv ct ((length ct - 1) / bs)) ++ xor_bytes (skipn bs old) (skipn bs ct).
