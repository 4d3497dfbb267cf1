(** lib/hash.c and include/kripto/desc/hash.h: the descriptor of a hash and the checks of the interface.
    [hs_st] is the object; salts are byte lists ([salt_len] is the length); the message is a byte list. *)
From Coq Require Import NArith Arith List Bool.
From Verif Require Import Lib.Res.
Import ListNotations.

(** desc/hash.h: create, recreate, input, output, (destroy), hash_all, maxout, blocksize, maxsalt *)
Record hash := {
  hs_st : Type;
  hs_create : N -> list N -> nat -> res hs_st;
  hs_recreate : hs_st -> N -> list N -> nat -> res hs_st;
  hs_input : hs_st -> list N -> res hs_st;
  hs_output : hs_st -> nat -> res (hs_st * list N);
  hs_all : N -> list N -> list N -> nat -> res (list N);
  hs_maxout : nat;
  hs_blocksize : nat;
  hs_maxsalt : N }.
(** hash.c:36-37: assert(salt_len <= maxsalt); assert(!maxout || out_len <= maxout) *)
Definition hash_args_ok (d : hash) (salt : list N) (n : nat) : bool :=
  (N.of_nat (length salt) <=? hs_maxsalt d)%N && ((hs_maxout d =? 0) || (n <=? hs_maxout d)).
(** hash.c:25-40 *)
Definition hash_create (d : hash) (r : N) (salt : list N) (n : nat) : res (hs_st d) :=
  assert_ (hash_args_ok d salt n) (hs_create d r salt n).
(** hash.c:42-58 *)
Definition hash_recreate (d : hash) (s : hs_st d) (r : N) (salt : list N) (n : nat) : res (hs_st d) :=
  assert_ (hash_args_ok d salt n) (hs_recreate d s r salt n).
(** hash.c:60-67 *)
Definition hash_input (d : hash) (s : hs_st d) (l : list N) : res (hs_st d) := hs_input d s l.
(** hash.c:69-77: assert(!maxout || len <= maxout) *)
Definition hash_output (d : hash) (s : hs_st d) (len : nat) : res (hs_st d * list N) :=
  assert_ ((hs_maxout d =? 0) || (len <=? hs_maxout d)) (hs_output d s len).
(** hash.c:88-106 *)
Definition hash_all (d : hash) (r : N) (salt l : list N) (n : nat) : res (list N) :=
  assert_ (hash_args_ok d salt n) (hs_all d r salt l n).
