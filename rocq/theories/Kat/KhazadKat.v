(** Generated by tools/kats.py from /repo/test/block. *)
From Coq Require Import NArith List String.
From Verif Require Import Lib.Res Lib.Hex Model.Khazad.
Import ListNotations.
Local Open Scope N_scope.

(** /repo/test/block/khazad.c *)
Example kkhazad_kat_1 :
  (let* s := khazad_create 0 (hex "FFFFFFFFFFFFFFFFFFFFFFFFFFFFFFFF") in
   let* c := khazad_encrypt s (hex "FFFFFFFFFFFFFFFF") in
   let* p := khazad_decrypt s c in Ok (c, p)) =
  Ok (hex "9F8B344F0CF811B0", hex "FFFFFFFFFFFFFFFF").
Proof. vm_compute. reflexivity. Qed.
