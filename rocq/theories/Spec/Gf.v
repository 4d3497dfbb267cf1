(** Multiplication in GF(2^8) = GF(2)[x] / poly. *)
From Coq Require Import NArith.
Local Open Scope N_scope.

Definition xtime (poly x : N) : N := let y := 2 * x in if 256 <=? y then N.lxor y poly else y.
Fixpoint gf_mul_pos (poly : N) (p : positive) (y : N) : N :=
  match p with
  | xH => y
  | xO p => xtime poly (gf_mul_pos poly p y)
  | xI p => N.lxor y (xtime poly (gf_mul_pos poly p y))
  end.
Definition gf_mul (poly x y : N) : N := match x with N0 => 0 | Npos p => gf_mul_pos poly p y end.
