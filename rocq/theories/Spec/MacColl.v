(** Two messages with the same tag. *)
From Coq Require Import NArith Arith List Bool.
From Verif Require Import Lib.Res Lib.Bytes Spec.Hmac Spec.Mac Model.HashApi Model.MacApi.
Import ListNotations.

(** the object gives the two messages, split into parts in any way, the same tag of [n] bytes *)
Definition same_tag (d : mac) (s : res (mc_st d)) (n : nat) (M M' : list N) : Prop :=
  exists t, length t = n /\ forall parts, Forall bytes_ok parts -> concat parts = M \/ concat parts = M' -> tag_of d s parts [n] = Ok t.
(** [M] and [M'] are one or more whole blocks of [bs] bytes.  The tags agree exactly when they agree with any [Z] put after both. *)
Definition tag_extends (d : mac) (s : res (mc_st d)) (bs : nat) : Prop :=
  forall M M' Z, bytes_ok M -> bytes_ok M' -> bytes_ok Z -> M <> [] -> M' <> [] -> Nat.divide bs (length M) -> Nat.divide bs (length M') ->
  (same_tag d s bs M M' <-> same_tag d s bs (M ++ Z) (M' ++ Z)).

(** HMAC: the tags of [m] and [m'] are the same exactly when the hash collides on the inner messages or on the outer ones.
    [coll x x'] is said of two different messages with the same digest of [n] bytes. *)
Definition same_digest (d : hash) (r : N) (n : nat) (x x' : list N) : Prop := x <> x' /\ exists t, hash_all d r [] x n = Ok t /\ hash_all d r [] x' n = Ok t.
Definition hmac_collides (d : hash) (r : N) (n : nat) (coll : list N -> list N -> Prop) (key m m' : list N) : Prop :=
  exists K h h', (length key <= hs_blocksize d /\ K = key \/ hs_blocksize d < length key /\ hash_all d r [] key n = Ok K) /\
    let inner := pad_key (hs_blocksize d) ipad K in let outer := pad_key (hs_blocksize d) opad K in
    hash_all d r [] (inner ++ m) n = Ok h /\ hash_all d r [] (inner ++ m') n = Ok h' /\
    (coll (inner ++ m) (inner ++ m') \/ coll (outer ++ h) (outer ++ h')).
