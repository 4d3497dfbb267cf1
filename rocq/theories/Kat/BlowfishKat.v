(** Generated by tools/kats.py from /repo/test/block. *)
From Coq Require Import NArith List String.
From Verif Require Import Lib.Res Lib.Hex Model.Blowfish.
Import ListNotations.
Local Open Scope N_scope.

(** /repo/test/block/blowfish.c *)
Example kblowfish_kat_1 :
  (let* s := blowfish_create 0 (hex "F0E1D2C3B4A5968778695A4B3C2D1E0F0011223344556677") in
   let* c := blowfish_encrypt s (hex "FEDCBA9876543210") in
   let* p := blowfish_decrypt s c in Ok (c, p)) =
  Ok (hex "05044B62FA52D080", hex "FEDCBA9876543210").
Proof. vm_compute. reflexivity. Qed.

(** /repo/test/block/blowfish.c *)
Example kblowfish_kat_2 :
  (let* s := blowfish_create 0 (hex "0123456789ABCDEF") in
   let* c := blowfish_encrypt s (hex "1111111111111111") in
   let* p := blowfish_decrypt s c in Ok (c, p)) =
  Ok (hex "61F9C3802281B096", hex "1111111111111111").
Proof. vm_compute. reflexivity. Qed.
