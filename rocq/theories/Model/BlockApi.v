(** lib/block.c: the asserts of the dispatch layer; room in trailing arrays. *)
From Coq Require Import NArith List Bool.
From Verif Require Import Lib.Res.

(** lib/block.c:38-39 (create) and 57-58 (recreate):
    [assert(key_len); assert(key_len <= kripto_block_maxkey(desc));] *)
Definition key_len_ok (maxkey : nat) (key : list N) : bool :=
  Nat.ltb 0 (length key) && Nat.leb (length key) maxkey.

(** A setup function that stores [need] words into a trailing array allocated
    with room for [room] words: a write outside the allocation if it is too small. *)
Definition fits {A} (need room : N) (k : res A) : res A :=
  if (need <=? room)%N then k else Err OobWrite.

(** include/kripto/desc/block.h: the functions and sizes of a cipher. *)
Record bcipher := {
  bc_st : Type;
  bc_bs : nat;
  bc_maxkey : nat;
  bc_create : N -> list N -> res bc_st;
  bc_recreate : bc_st -> N -> list N -> res bc_st;
  bc_enc : bc_st -> list N -> res (list N);
  bc_dec : bc_st -> list N -> res (list N)
}.
