(** Generated by tools/kats.py from /repo/test/block. *)
From Coq Require Import NArith List String.
From Verif Require Import Lib.Res Lib.Hex Model.Gost.
Import ListNotations.
Local Open Scope N_scope.

(** /repo/test/block/gost.c *)
Example kgost_kat_1 :
  (let* s := gost_create gost_cbr 0 (hex "546D203368656C326973652073736E62206167796967747473656865202C3D73") in
   let* c := gost_encrypt s (hex "0000000000000000") in
   let* p := gost_decrypt s c in Ok (c, p)) =
  Ok (hex "1B0BBC32CEBCAB42", hex "0000000000000000").
Proof. vm_compute. reflexivity. Qed.
