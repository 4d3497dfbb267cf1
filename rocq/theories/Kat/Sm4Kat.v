(** Generated by tools/kats.py from /repo/test/block. *)
From Coq Require Import NArith List String.
From Verif Require Import Lib.Res Lib.Hex Model.Sm4.
Import ListNotations.
Local Open Scope N_scope.

(** /repo/test/block/sm4.c *)
Example ksm4_kat_1 :
  (let* s := sm4_create 0 (hex "FEDCBA98765432100123456789ABCDEF") in
   let* c := sm4_encrypt s (hex "000102030405060708090A0B0C0D0E0F") in
   let* p := sm4_decrypt s c in Ok (c, p)) =
  Ok (hex "F766678F13F01ADEAC1B3EA955ADB594", hex "000102030405060708090A0B0C0D0E0F").
Proof. vm_compute. reflexivity. Qed.
