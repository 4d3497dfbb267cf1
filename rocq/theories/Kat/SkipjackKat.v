(** Generated by tools/kats.py from /repo/test/block. *)
From Coq Require Import NArith List String.
From Verif Require Import Lib.Res Lib.Hex Model.Skipjack.
Import ListNotations.
Local Open Scope N_scope.

(** /repo/test/block/skipjack.c *)
Example kskipjack_kat_1 :
  (let* s := skipjack_create 0 (hex "80000000000000000000") in
   let* c := skipjack_encrypt s (hex "0000000000000000") in
   let* p := skipjack_decrypt s c in Ok (c, p)) =
  Ok (hex "7A00E49441461F5A", hex "0000000000000000").
Proof. vm_compute. reflexivity. Qed.

(** /repo/test/block/skipjack.c *)
Example kskipjack_kat_2 :
  (let* s := skipjack_create 0 (hex "00000000000000000001") in
   let* c := skipjack_encrypt s (hex "0000000000000000") in
   let* p := skipjack_decrypt s c in Ok (c, p)) =
  Ok (hex "74D0E7C2E3B450A8", hex "0000000000000000").
Proof. vm_compute. reflexivity. Qed.
