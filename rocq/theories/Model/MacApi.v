(** lib/mac.c and include/kripto/desc/mac.h: the descriptor of a MAC and the checks of the interface. *)
From Coq Require Import NArith Arith List Bool.
From Verif Require Import Lib.Res Model.Mem Model.Util.
Import ListNotations.
Local Open Scope nat_scope.

(** desc/mac.h: create(rounds, key, tag_len), recreate, input, tag, (destroy), maxtag, maxkey *)
Record mac := {
  mc_st : Type;
  mc_create : N -> list N -> nat -> res mc_st;
  mc_recreate : mc_st -> N -> list N -> nat -> res mc_st;
  mc_input : mc_st -> list N -> res mc_st;
  mc_tag : mc_st -> nat -> res (mc_st * list N);
  mc_maxtag : nat;
  mc_maxkey : N }.
(** mac.c:27-43: assert(key_len); neither maxkey nor maxtag is checked *)
Definition mac_create (d : mac) (r : N) (key : list N) (n : nat) : res (mc_st d) :=
  assert_ (0 <? length key) (mc_create d r key n).
(** mac.c:45-62 *)
Definition mac_recreate (d : mac) (s : mc_st d) (r : N) (key : list N) (n : nat) : res (mc_st d) :=
  assert_ (0 <? length key) (mc_recreate d s r key n).
(** mac.c:64-71 *)
Definition mac_input (d : mac) (s : mc_st d) (l : list N) : res (mc_st d) := mc_input d s l.
(** mac.c:73-80 *)
Definition mac_tag (d : mac) (s : mc_st d) (len : nat) : res (mc_st d * list N) := mc_tag d s len.
(** mac.c:82-91: "char t[len]" and kripto_memory_equals; t is at 0 and the caller's tag follows *)
Definition mac_verify (d : mac) (s : mc_st d) (tag : list N) : res (mc_st d * N) :=
  let len := length tag in
  if len =? 0 then Err VlaZero else
  let* q := mc_tag d s len in
  Ok (fst q, memory_equals (wr (wr (fun _ => 0%N) 0 (snd q)) len tag) 0 len len).
(** mac.c:102-128; in_len is an unsigned int, longer messages cannot be passed *)
Definition mac_all (d : mac) (r : N) (key l : list N) (n : nat) : res (list N) :=
  let* s := mac_create d r key n in let* s := mac_input d s l in let* q := mac_tag d s n in Ok (snd q).
