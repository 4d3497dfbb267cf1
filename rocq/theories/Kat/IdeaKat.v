(** Generated by tools/kats.py from /repo/test/block. *)
From Coq Require Import NArith List String.
From Verif Require Import Lib.Res Lib.Hex Model.Idea.
Import ListNotations.
Local Open Scope N_scope.

(** /repo/test/block/idea.c *)
Example kidea_kat_1 :
  (let* s := idea_create 0 (hex "FFFFFFFFFFFFFFFFFFFFFFFFFFFFFFFF") in
   let* c := idea_encrypt s (hex "FFFFFFFFFFFFFFFF") in
   let* p := idea_decrypt s c in Ok (c, p)) =
  Ok (hex "CD1AB2C1211041FB", hex "FFFFFFFFFFFFFFFF").
Proof. vm_compute. reflexivity. Qed.
