(** Generated by tools/kats.py from /repo/test/block. *)
From Coq Require Import NArith List String.
From Verif Require Import Lib.Res Lib.Hex Model.Des.
Import ListNotations.
Local Open Scope N_scope.

(** /repo/test/block/des.c *)
Example kdes_kat_1 :
  (let* s := des_create 0 (hex "FFFFFFFFFFFFFFFF") in
   let* c := des_encrypt s (hex "FFFFFFFFFFFFFFFF") in
   let* p := des_decrypt s c in Ok (c, p)) =
  Ok (hex "7359B2163E4EDC58", hex "FFFFFFFFFFFFFFFF").
Proof. vm_compute. reflexivity. Qed.

(** /repo/test/block/des.c *)
Example kdes_kat_2 :
  (let* s := des_create 0 (hex "FFFFFFFFFFFFFFFFFFFFFFFFFFFFFFFF") in
   let* c := des_encrypt s (hex "FFFFFFFFFFFFFFFF") in
   let* p := des_decrypt s c in Ok (c, p)) =
  Ok (hex "7359B2163E4EDC58", hex "FFFFFFFFFFFFFFFF").
Proof. vm_compute. reflexivity. Qed.

(** /repo/test/block/des.c *)
Example kdes_kat_3 :
  (let* s := des_create 0 (hex "FFFFFFFFFFFFFFFFFFFFFFFFFFFFFFFFFFFFFFFFFFFFFFFF") in
   let* c := des_encrypt s (hex "FFFFFFFFFFFFFFFF") in
   let* p := des_decrypt s c in Ok (c, p)) =
  Ok (hex "7359B2163E4EDC58", hex "FFFFFFFFFFFFFFFF").
Proof. vm_compute. reflexivity. Qed.
