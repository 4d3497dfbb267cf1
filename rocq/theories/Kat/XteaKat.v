(** Generated by tools/kats.py from /repo/test/block. *)
From Coq Require Import NArith List String.
From Verif Require Import Lib.Res Lib.Hex Model.Xtea.
Import ListNotations.
Local Open Scope N_scope.

(** /repo/test/block/xtea.c *)
Example kxtea_kat_1 :
  (let* s := xtea_create 0 (hex "000102030405060708090A0B0C0D0E0F") in
   let* c := xtea_encrypt s (hex "0011223344556677") in
   let* p := xtea_decrypt s c in Ok (c, p)) =
  Ok (hex "D9A4F870BA1F45D6", hex "0011223344556677").
Proof. vm_compute. reflexivity. Qed.
