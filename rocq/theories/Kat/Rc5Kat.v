(** Generated by tools/kats.py from /repo/test/block. *)
From Coq Require Import NArith List String.
From Verif Require Import Lib.Res Lib.Hex Model.Rc5.
Import ListNotations.
Local Open Scope N_scope.

(** /repo/test/block/rc5.c *)
Example krc5_kat_1 :
  (let* s := rc5_create 0 (hex "000102030405060708090A0B0C0D0E0F") in
   let* c := rc5_encrypt s (hex "96950DDA654A3D62") in
   let* p := rc5_decrypt s c in Ok (c, p)) =
  Ok (hex "0011223344556677", hex "96950DDA654A3D62").
Proof. vm_compute. reflexivity. Qed.
