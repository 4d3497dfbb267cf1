(** Generated by tools/kats.py from /repo/test/block. *)
From Coq Require Import NArith List String.
From Verif Require Import Lib.Res Lib.Hex Model.Rc2.
Import ListNotations.
Local Open Scope N_scope.

(** /repo/test/block/rc2.c *)
Example krc2_kat_1 :
  (let* s := rc2_create 0 (hex "000102030405060708090A0B0C0D0E0F") in
   let* c := rc2_encrypt s (hex "0011223344556677") in
   let* p := rc2_decrypt s c in Ok (c, p)) =
  Ok (hex "5AB3337C2C72B69F", hex "0011223344556677").
Proof. vm_compute. reflexivity. Qed.
