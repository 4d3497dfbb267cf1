(** Using a MAC object: chunks of a message, pieces of a tag. *)
From Coq Require Import NArith Arith List Bool.
From Verif Require Import Lib.Res Lib.Bytes Model.MacApi.
Import ListNotations.

Fixpoint mfeed (d : mac) (s : mc_st d) (parts : list (list N)) : res (mc_st d) :=
  match parts with [] => Ok s | x :: t => let* s := mac_input d s x in mfeed d s t end.
Fixpoint mtags (d : mac) (s : mc_st d) (lens : list nat) : res (list N) :=
  match lens with
  | [] => Ok []
  | n :: t => let* p := mac_tag d s n in let* o := mtags d (fst p) t in Ok (snd p ++ o)
  end.
Definition tag_of (d : mac) (s : res (mc_st d)) (parts : list (list N)) (lens : list nat) : res (list N) :=
  let* s := s in let* s := mfeed d s parts in mtags d s lens.
Definition verify_of (d : mac) (s : res (mc_st d)) (parts : list (list N)) (tag : list N) : res N :=
  let* s := s in let* s := mfeed d s parts in let* q := mac_verify d s tag in Ok (snd q).

(** From the object [s] on, the tags of messages of an accepted length are the first bytes of [T], for every splitting
    of the message and the accepted splittings of the tag; and verification accepts exactly these. *)
Definition mac_gives (d : mac) (s : res (mc_st d)) (okl : list nat -> Prop) (okm : nat -> Prop) (T : list N -> list N) : Prop :=
  forall parts, Forall bytes_ok parts -> okm (length (concat parts)) ->
  (forall lens, okl lens -> tag_of d s parts lens = Ok (firstn (list_sum lens) (T (concat parts)))) /\
  (forall tag, bytes_ok tag -> tag <> [] -> okl [length tag] ->
    exists v, verify_of d s parts tag = Ok v /\ (v <> 0%N <-> tag = firstn (length tag) (T (concat parts)))).
(** A new object and the function for everything at once. *)
Definition mac_computes (d : mac) (r : N) (key : list N) (n : nat) (okl : list nat -> Prop) (okm : nat -> Prop) (T : list N -> list N) : Prop :=
  mac_gives d (mac_create d r key n) okl okm T /\
  forall msg, bytes_ok msg -> okm (length msg) -> mac_all d r key msg n = Ok (firstn n (T msg)).
(** all splittings into at most [n] bytes *)
Definition at_most (n : nat) (lens : list nat) : Prop := list_sum lens <= n.
