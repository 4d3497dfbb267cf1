(** Generated by tools/kats.py from /repo/test/block. *)
From Coq Require Import NArith List String.
From Verif Require Import Lib.Res Lib.Hex Model.Cast5.
Import ListNotations.
Local Open Scope N_scope.

(** /repo/test/block/cast5.c *)
Example kcast5_kat_1 :
  (let* s := cast5_create 0 (hex "FFFFFFFFFFFFFFFFFFFFFFFFFFFFFFFF") in
   let* c := cast5_encrypt s (hex "FFFFFFFFFFFFFFFF") in
   let* p := cast5_decrypt s c in Ok (c, p)) =
  Ok (hex "1D0C41EB2B24A69B", hex "FFFFFFFFFFFFFFFF").
Proof. vm_compute. reflexivity. Qed.
