(** Modes of operation as in NIST SP 800-38A, on byte strings.  [f] is the block
    cipher under a fixed key. *)
From Coq Require Import NArith Arith List Bool.
From Verif Require Import Lib.Res Lib.Bytes Model.Mem.
Import ListNotations.
Local Open Scope nat_scope.

Fixpoint xor_bytes (a b : list N) : list N :=
  match a, b with x :: a', y :: b' => N.lxor x y :: xor_bytes a' b' | _, _ => [] end.

(** block number [i] of [l] *)
Definition block (bs i : nat) (l : list N) : list N := slice (i * bs) bs l.

(** byte [i] of a key stream given block by block *)
Definition ks_byte (bs : nat) (blocks : nat -> list N) (i : nat) : N := nth (i mod bs) (blocks (i / bs)) 0%N.
(** xor with a key stream from position [i] on *)
Fixpoint xor_ks (ks : nat -> N) (i : nat) (l : list N) : list N :=
  match l with [] => [] | b :: t => N.lxor b (ks i) :: xor_ks ks (S i) t end.

Section Spec.
  Variable bs : nat.
  Variable f : list N -> list N.

  (** ECB: every block on its own *)
  Definition ecb_spec (l out : list N) : Prop :=
    length out = length l /\ forall i, i < length l / bs -> block bs i out = f (block bs i l).

  (** CBC: [C_i = E (P_i xor C_(i-1))], [C_(-1) = IV] *)
  Definition cbc_spec (iv l out : list N) : Prop :=
    length out = length l /\
    forall i, i < length l / bs ->
      block bs i out = f (xor_bytes (block bs i l) (match i with O => iv | S j => block bs j out end)).

  (** CFB with full blocks: byte [n] of the output is byte [n] of the input xor byte [n mod bs] of
      [E] of the previous output block ([IV] for the first); the last block may be partial. *)
  Definition cfb_spec (iv l out : list N) : Prop :=
    length out = length l /\
    forall n, n < length l ->
      nth n out 0%N = N.lxor (nth n l 0%N)
        (nth (n mod bs) (f (match n / bs with O => iv | S j => block bs j out end)) 0%N).

  (** OFB: [O_0 = E IV], [O_(i+1) = E O_i] *)
  Fixpoint ofb_block (iv : list N) (i : nat) : list N :=
    match i with O => f iv | S j => f (ofb_block iv j) end.
  Definition ofb_ks (iv : list N) : nat -> N := ks_byte bs (ofb_block iv).

  (** CTR: block [i] is [E (IV + i)], the whole block being one big endian counter *)
  Definition ctr_value (iv : list N) (i : nat) : list N :=
    be_bytes bs ((be_val iv + N.of_nat i) mod 256 ^ N.of_nat bs)%N.
  Definition ctr_ks (iv : list N) : nat -> N := ks_byte bs (fun i => f (ctr_value iv i)).
End Spec.

(** The counter of lib/stream/ctr.c: the first byte stays, the others count. *)
Definition ctr_at (iv : list N) (j : nat) : list N :=
  match iv with
  | [] => []
  | a :: t => a :: be_bytes (length t) ((be_val t + N.of_nat j) mod 256 ^ N.of_nat (length t))
  end.

(** The caller's two buffers: the output may overlap the input only in front of it
    (in particular it may be the same buffer). *)
Definition buffers_ok (src dst len : nat) : Prop := dst <= src \/ src + len <= dst.
(** Only [len] bytes from [dst] on may change. *)
Definition frame (m m' : mem) (dst len : nat) : Prop := forall x, x < dst \/ dst + len <= x -> m' x = m x.

(** A session: consecutive calls of one operation on one object, each with its own buffers and
    memory; [inp] and [out] are the concatenated input and output bytes. *)
Inductive session {S} (op : S -> mem -> nat -> nat -> nat -> res (S * mem)) : S -> list N -> S -> list N -> Prop :=
| ses_nil s : session op s [] s []
| ses_call s m src dst len s1 m1 inp s2 out :
    buffers_ok src dst len -> bytes_ok (rd m src len) ->
    op s m src dst len = Ok (s1, m1) ->
    session op s1 inp s2 out ->
    session op s (rd m src len ++ inp) s2 (rd m1 dst len ++ out).

(** The same for generators of bytes. *)
Inductive gsession {S} (op : S -> mem -> nat -> nat -> res (S * mem)) : S -> S -> list N -> Prop :=
| gses_nil s : gsession op s s []
| gses_call s m dst len s1 m1 s2 out :
    op s m dst len = Ok (s1, m1) ->
    gsession op s1 s2 out ->
    gsession op s s2 (rd m1 dst len ++ out).

(** In state [s] the operation succeeds for every choice of buffers the rules allow and changes
    nothing but the output. *)
Definition call_safe {S} (op : S -> mem -> nat -> nat -> nat -> res (S * mem)) (mult : nat) (s : S) : Prop :=
  forall m src dst len, len mod mult = 0 -> buffers_ok src dst len -> bytes_ok (rd m src len) ->
  exists s' m', op s m src dst len = Ok (s', m') /\ frame m m' dst len.
Definition gcall_safe {S} (op : S -> mem -> nat -> nat -> res (S * mem)) (s : S) : Prop :=
  forall m dst len, exists s' m', op s m dst len = Ok (s', m') /\ frame m m' dst len.
(** The same for calls of at most [n] bytes. *)
Definition call_safe_upto {S} (op : S -> mem -> nat -> nat -> nat -> res (S * mem)) (n : nat) (s : S) : Prop :=
  forall m src dst len, len <= n -> buffers_ok src dst len -> bytes_ok (rd m src len) ->
  exists s' m', op s m src dst len = Ok (s', m') /\ frame m m' dst len.
Definition gcall_safe_upto {S} (op : S -> mem -> nat -> nat -> res (S * mem)) (n : nat) (s : S) : Prop :=
  forall m dst len, len <= n -> exists s' m', op s m dst len = Ok (s', m') /\ frame m m' dst len.
