(** Generated by tools/kats.py from /repo/test/block. *)
From Coq Require Import NArith List String.
From Verif Require Import Lib.Res Lib.Hex Model.Camellia.
Import ListNotations.
Local Open Scope N_scope.

(** /repo/test/block/camellia.c *)
Example kcamellia_kat_1 :
  (let* s := camellia_create 0 (hex "FFFFFFFFFFFFFFFFFFFFFFFFFFFFFFFF") in
   let* c := camellia_encrypt s (hex "FFFFFFFFFFFFFFFFFFFFFFFFFFFFFFFF") in
   let* p := camellia_decrypt s c in Ok (c, p)) =
  Ok (hex "25DD9EB9DD67FBC6E8431F56F4FBE651", hex "FFFFFFFFFFFFFFFFFFFFFFFFFFFFFFFF").
Proof. vm_compute. reflexivity. Qed.

(** /repo/test/block/camellia.c *)
Example kcamellia_kat_2 :
  (let* s := camellia_create 0 (hex "FFFFFFFFFFFFFFFFFFFFFFFFFFFFFFFFFFFFFFFFFFFFFFFF") in
   let* c := camellia_encrypt s (hex "FFFFFFFFFFFFFFFFFFFFFFFFFFFFFFFF") in
   let* p := camellia_decrypt s c in Ok (c, p)) =
  Ok (hex "3F8D5676F51CE23DC3BDB627F8B3883E", hex "FFFFFFFFFFFFFFFFFFFFFFFFFFFFFFFF").
Proof. vm_compute. reflexivity. Qed.

(** /repo/test/block/camellia.c *)
Example kcamellia_kat_3 :
  (let* s := camellia_create 0 (hex "FFFFFFFFFFFFFFFFFFFFFFFFFFFFFFFFFFFFFFFFFFFFFFFFFFFFFFFFFFFFFFFF") in
   let* c := camellia_encrypt s (hex "FFFFFFFFFFFFFFFFFFFFFFFFFFFFFFFF") in
   let* p := camellia_decrypt s c in Ok (c, p)) =
  Ok (hex "4F05F28CA23EEAE205B67B1C95CD5280", hex "FFFFFFFFFFFFFFFFFFFFFFFFFFFFFFFF").
Proof. vm_compute. reflexivity. Qed.
