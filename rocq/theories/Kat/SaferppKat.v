(** Generated by tools/kats.py from /repo/test/block. *)
From Coq Require Import NArith List String.
From Verif Require Import Lib.Res Lib.Hex Model.Saferpp.
Import ListNotations.
Local Open Scope N_scope.

(** /repo/test/block/saferpp.c *)
Example ksaferpp_kat_1 :
  (let* s := saferpp_create 0 (hex "FFFFFFFFFFFFFFFFFFFFFFFFFFFFFFFF") in
   let* c := saferpp_encrypt s (hex "FFFFFFFFFFFFFFFFFFFFFFFFFFFFFFFF") in
   let* p := saferpp_decrypt s c in Ok (c, p)) =
  Ok (hex "302BBA9156BBCB2BF6D9C7C07086FB4D", hex "FFFFFFFFFFFFFFFFFFFFFFFFFFFFFFFF").
Proof. vm_compute. reflexivity. Qed.

(** /repo/test/block/saferpp.c *)
Example ksaferpp_kat_2 :
  (let* s := saferpp_create 0 (hex "FFFFFFFFFFFFFFFFFFFFFFFFFFFFFFFFFFFFFFFFFFFFFFFFFFFFFFFFFFFFFFFF") in
   let* c := saferpp_encrypt s (hex "FFFFFFFFFFFFFFFFFFFFFFFFFFFFFFFF") in
   let* p := saferpp_decrypt s c in Ok (c, p)) =
  Ok (hex "6421D484EB3AF18F71A6F2CD1B07003B", hex "FFFFFFFFFFFFFFFFFFFFFFFFFFFFFFFF").
Proof. vm_compute. reflexivity. Qed.
