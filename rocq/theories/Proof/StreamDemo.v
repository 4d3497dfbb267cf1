(** Concrete sessions of the stream ciphers, for the examples beside the theorems. *)
From Coq Require Import NArith Arith List Bool Lia.
From Verif Require Import Lib.Res Lib.Bytes Spec.Modes Model.Mem Proof.ModesRefute.
Import ListNotations.
Local Open Scope nat_scope.

(** two calls: three bytes in place, two bytes into another buffer *)
Definition two_calls {S} (op : S -> mem -> nat -> nat -> nat -> res (S * mem)) (s0 : S) : bool :=
  match op s0 demo_mem 0 0 3 with
  | Ok (s1, _) => match op s1 demo_mem 7 100 2 with Ok _ => true | _ => false end
  | _ => false
  end.
Lemma two_calls_session {S} (op : S -> mem -> nat -> nat -> nat -> res (S * mem)) (cr : res S) :
  match cr with Ok s0 => two_calls op s0 | _ => false end = true ->
  exists s0 s out, cr = Ok s0 /\ session op s0 [0; 1; 2; 7; 8]%N s out /\ length out = 5.
Proof.
  intros H. apply ok_some in H. destruct H as (s0 & E0 & H). unfold two_calls in H.
  apply ok_some in H. destruct H as ([s1 m1] & E1 & H). cbv beta iota in H.
  apply ok_some in H. destruct H as ([s2 m2] & E2 & _).
  exists s0, s2, (rd m1 0 3 ++ rd m2 100 2 ++ []). split; [exact E0|]. split; [|reflexivity].
  change [0; 1; 2; 7; 8]%N with (rd demo_mem 0 3 ++ rd demo_mem 7 2 ++ []).
  econstructor; [left; lia|repeat constructor|exact E1|]. econstructor; [right; lia|repeat constructor|exact E2|]. constructor.
Qed.
