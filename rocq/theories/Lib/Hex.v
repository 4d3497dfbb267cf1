(** Hexadecimal byte strings, for test vectors. *)
From Coq Require Import NArith List String Ascii.
Import ListNotations.
Local Open Scope N_scope.

Definition nib (c : ascii) : N :=
  let n := N_of_ascii c in
  if n <? 58 then n - 48 else if n <? 71 then n - 55 else n - 87.

Fixpoint hex (s : string) : list N :=
  match s with
  | String a (String b t) => (16 * nib a + nib b) :: hex t
  | _ => []
  end.

(** the bytes of an ASCII text *)
Fixpoint text (s : string) : list N :=
  match s with
  | String a t => N_of_ascii a :: text t
  | EmptyString => []
  end.
