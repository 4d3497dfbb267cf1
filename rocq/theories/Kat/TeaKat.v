(** Generated by tools/kats.py from /repo/test/block. *)
From Coq Require Import NArith List String.
From Verif Require Import Lib.Res Lib.Hex Model.Tea.
Import ListNotations.
Local Open Scope N_scope.

(** /repo/test/block/tea.c *)
Example ktea_kat_1 :
  (let* s := tea_create 0 (hex "000102030405060708090A0B0C0D0E0F") in
   let* c := tea_encrypt s (hex "0011223344556677") in
   let* p := tea_decrypt s c in Ok (c, p)) =
  Ok (hex "3B7689C3F5FBC86B", hex "0011223344556677").
Proof. vm_compute. reflexivity. Qed.
