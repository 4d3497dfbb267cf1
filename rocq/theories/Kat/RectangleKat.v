(** Generated by tools/kats.py from /repo/test/block. *)
From Coq Require Import NArith List String.
From Verif Require Import Lib.Res Lib.Hex Model.Rectangle.
Import ListNotations.
Local Open Scope N_scope.

(** /repo/test/block/rectangle.c *)
Example krectangle_kat_1 :
  (let* s := rect_create 0 (hex "00000000000000000000") in
   let* c := rect_encrypt s (hex "0000000000000000") in
   let* p := rect_decrypt s c in Ok (c, p)) =
  Ok (hex "2D96E354E8B10874", hex "0000000000000000").
Proof. vm_compute. reflexivity. Qed.

(** /repo/test/block/rectangle.c *)
Example krectangle_kat_2 :
  (let* s := rect_create 0 (hex "00000000000000000000000000000000") in
   let* c := rect_encrypt s (hex "0000000000000000") in
   let* p := rect_decrypt s c in Ok (c, p)) =
  Ok (hex "AEE6361344A499EE", hex "0000000000000000").
Proof. vm_compute. reflexivity. Qed.
