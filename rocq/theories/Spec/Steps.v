(** A small C with the steps it takes: what somebody measuring time or the cache can see of a run.
    Values are words as in Lib/Word.v.  Memory is in arrays that do not overlap; an index outside the array is not an error here
    (the models of the functions have it as one, and the properties tie the two).  Arithmetic shows nothing. *)
From Coq Require Import NArith Arith List Bool.
From Verif Require Import Lib.Word.
Import ListNotations.

Inductive op1 := Not | Mask (w : N) | Shl (w n : N) | Shr (n : N) | Rol (w n : N) | Ror (w n : N).
Inductive op2 := Add (w : N) | Sub (w : N) | Mul (w : N) | Xor | Or | And | Lt | Eq.
Definition val1 (o : op1) (x : N) : N := match o with
  | Not => if (x =? 0)%N then 1%N else 0%N | Mask w => mask w x | Shl w n => wshl w x n | Shr n => wshr x n | Rol w n => rol w x n | Ror w n => ror w x n end.
Definition val2 (o : op2) (x y : N) : N := match o with
  | Add w => wadd w x y | Sub w => wsub w x y | Mul w => wmul w x y | Xor => N.lxor x y | Or => N.lor x y | And => N.land x y
  | Lt => if (x <? y)%N then 1%N else 0%N | Eq => if (x =? y)%N then 1%N else 0%N end.

(** local variables and arrays have numbers as names *)
Inductive expr := Lit (n : N) | Var (x : nat) | At (a : nat) (i : expr) | Un (o : op1) (e : expr) | Bin (o : op2) (e1 e2 : expr).
Inductive stmt := Skip | Set_ (x : nat) (e : expr) | Put (a : nat) (i e : expr) | Seq (s1 s2 : stmt) | If (e : expr) (s1 s2 : stmt) | While (e : expr) (s : stmt) | Break.
Record state := { vars : nat -> N; arrs : nat -> nat -> N }.
Definition set_var (s : state) (x : nat) (v : N) : state := {| vars := fun y => if Nat.eqb y x then v else vars s y; arrs := arrs s |}.
Definition set_arr (s : state) (a i : nat) (v : N) : state :=
  {| vars := vars s; arrs := fun b j => if Nat.eqb b a && Nat.eqb j i then v else arrs s b j |}.

(** what can be seen: each read and write with its place, and which way each branch goes *)
Inductive step := Reads (a i : nat) | Writes (a i : nat) | Goes (b : bool).

Fixpoint eval (s : state) (e : expr) : N * list step := match e with
  | Lit n => (n, [])
  | Var x => (vars s x, [])
  | At a e => let '(i, t) := eval s e in (arrs s a (N.to_nat i), t ++ [Reads a (N.to_nat i)])
  | Un o e => let '(v, t) := eval s e in (val1 o v, t)
  | Bin o e1 e2 => let '(v1, t1) := eval s e1 in let '(v2, t2) := eval s e2 in (val2 o v1 v2, t1 ++ t2) end.
(** a run gives the state, the steps and whether a break is on its way out; [fuel] is the largest number of turns of a loop, None if that is not enough *)
Definition result : Type := option (state * list step * bool).
(** while(e), the turns by [run] *)
Fixpoint turns (e : expr) (run : state -> result) (n : nat) (s : state) : result := match n with
  | O => None
  | S n => let '(v, t) := eval s e in
    if (v =? 0)%N then Some (s, t ++ [Goes false], false) else
    match run s with
    | Some (s1, t1, false) => match turns e run n s1 with Some (s2, t2, b) => Some (s2, t ++ Goes true :: t1 ++ t2, b) | None => None end
    | Some (s1, t1, true) => Some (s1, t ++ Goes true :: t1, false)
    | None => None end end.
Fixpoint exec (fuel : nat) (c : stmt) (s : state) : result := match c with
  | Skip => Some (s, [], false)
  | Set_ x e => let '(v, t) := eval s e in Some (set_var s x v, t, false)
  | Put a i e => let '(n, t1) := eval s i in let '(v, t2) := eval s e in Some (set_arr s a (N.to_nat n) v, t1 ++ t2 ++ [Writes a (N.to_nat n)], false)
  | Seq c1 c2 => match exec fuel c1 s with
    | Some (s1, t1, false) => match exec fuel c2 s1 with Some (s2, t2, b) => Some (s2, t1 ++ t2, b) | None => None end
    | r => r end
  | If e c1 c2 => let '(v, t) := eval s e in let b := negb (v =? 0)%N in
    match exec fuel (if b then c1 else c2) s with Some (s', t', x) => Some (s', t ++ Goes b :: t', x) | None => None end
  | While e c => turns e (exec fuel c) fuel s
  | Break => Some (s, [], true) end.
