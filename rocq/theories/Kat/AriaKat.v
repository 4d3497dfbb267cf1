(** Generated by tools/kats.py from /repo/test/block. *)
From Coq Require Import NArith List String.
From Verif Require Import Lib.Res Lib.Hex Model.Aria.
Import ListNotations.
Local Open Scope N_scope.

(** /repo/test/block/aria.c *)
Example karia_kat_1 :
  (let* s := aria_create 0 (hex "000102030405060708090A0B0C0D0E0F") in
   let* c := aria_encrypt s (hex "00112233445566778899AABBCCDDEEFF") in
   let* p := aria_decrypt s c in Ok (c, p)) =
  Ok (hex "D718FBD6AB644C739DA95F3BE6451778", hex "00112233445566778899AABBCCDDEEFF").
Proof. vm_compute. reflexivity. Qed.

(** /repo/test/block/aria.c *)
Example karia_kat_2 :
  (let* s := aria_create 0 (hex "000102030405060708090A0B0C0D0E0F1011121314151617") in
   let* c := aria_encrypt s (hex "00112233445566778899AABBCCDDEEFF") in
   let* p := aria_decrypt s c in Ok (c, p)) =
  Ok (hex "26449C1805DBE7AA25A468CE263A9E79", hex "00112233445566778899AABBCCDDEEFF").
Proof. vm_compute. reflexivity. Qed.

(** /repo/test/block/aria.c *)
Example karia_kat_3 :
  (let* s := aria_create 0 (hex "000102030405060708090A0B0C0D0E0F101112131415161718191A1B1C1D1E1F") in
   let* c := aria_encrypt s (hex "00112233445566778899AABBCCDDEEFF") in
   let* p := aria_decrypt s c in Ok (c, p)) =
  Ok (hex "F92BD7C79FB72E2F2B8F80C1972D24FC", hex "00112233445566778899AABBCCDDEEFF").
Proof. vm_compute. reflexivity. Qed.
