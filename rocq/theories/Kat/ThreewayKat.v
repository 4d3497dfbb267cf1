(** Generated by tools/kats.py from /repo/test/block. *)
From Coq Require Import NArith List String.
From Verif Require Import Lib.Res Lib.Hex Model.Threeway.
Import ListNotations.
Local Open Scope N_scope.

(** /repo/test/block/3way.c *)
Example k3way_kat_1 :
  (let* s := tw_create 0 (hex "D2F05B5ED6144138CAB920CD") in
   let* c := tw_encrypt s (hex "4059C76E83AE9DC4AD21ECF7") in
   let* p := tw_decrypt s c in Ok (c, p)) =
  Ok (hex "478EA8716B13F17C15B155ED", hex "4059C76E83AE9DC4AD21ECF7").
Proof. vm_compute. reflexivity. Qed.
