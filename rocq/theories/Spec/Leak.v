(** What ciphertexts of one key show about their plaintexts. *)
From Coq Require Import NArith Arith List.
From Verif Require Import Lib.Res Spec.Modes.
Import ListNotations.

(** the block chained into block [i] *)
Definition chained (bs : nat) (iv ct : list N) (i : nat) : list N := match i with O => iv | S j => block bs j ct end.
(** CBC: equal ciphertext blocks show the xor of the plaintext blocks, and nothing else makes them equal *)
Definition cbc_shows (bs : nat) (iv pt ct iv' pt' ct' : list N) : Prop := forall i j, i < length pt / bs -> j < length pt' / bs ->
  (block bs i ct = block bs j ct' <-> xor_bytes (block bs i pt) (block bs j pt') = xor_bytes (chained bs iv ct i) (chained bs iv' ct' j)).
(** CFB: after equal ciphertext blocks the xor of the ciphertext is the xor of the plaintext, and after different ones it is not *)
Definition cfb_shows (bs : nat) (iv pt ct iv' pt' ct' : list N) : Prop := forall i j, i < length pt / bs -> j < length pt' / bs ->
  (chained bs iv ct i = chained bs iv' ct' j <-> xor_bytes (block bs i pt) (block bs j pt') = xor_bytes (block bs i ct) (block bs j ct')).
