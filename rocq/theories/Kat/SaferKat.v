(** Generated by tools/kats.py from /repo/test/block. *)
From Coq Require Import NArith List String.
From Verif Require Import Lib.Res Lib.Hex Model.Safer.
Import ListNotations.
Local Open Scope N_scope.

(** /repo/test/block/safer.c *)
Example ksafer_kat_1 :
  (let* s := safer_create false 0 (hex "0807060504030201") in
   let* c := safer_encrypt s (hex "0102030405060708") in
   let* p := safer_decrypt s c in Ok (c, p)) =
  Ok (hex "C8F29CDD87783ED9", hex "0102030405060708").
Proof. vm_compute. reflexivity. Qed.

(** /repo/test/block/safer_sk.c *)
Example ksafer_sk_kat_1 :
  (let* s := safer_create true 0 (hex "0102030405060708") in
   let* c := safer_encrypt s (hex "0102030405060708") in
   let* p := safer_decrypt s c in Ok (c, p)) =
  Ok (hex "5FCE9BA2058438C7", hex "0102030405060708").
Proof. vm_compute. reflexivity. Qed.

(** /repo/test/block/safer_sk.c *)
Example ksafer_sk_kat_2 :
  (let* s := safer_create true 0 (hex "01020304050607080000000000000000") in
   let* c := safer_encrypt s (hex "0102030405060708") in
   let* p := safer_decrypt s c in Ok (c, p)) =
  Ok (hex "FF7811E4B3A72E71", hex "0102030405060708").
Proof. vm_compute. reflexivity. Qed.
