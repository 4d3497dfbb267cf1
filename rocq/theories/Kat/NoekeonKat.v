(** Generated by tools/kats.py from /repo/test/block. *)
From Coq Require Import NArith List String.
From Verif Require Import Lib.Res Lib.Hex Model.Noekeon.
Import ListNotations.
Local Open Scope N_scope.

(** /repo/test/block/noekeon.c *)
Example knoekeon_kat_1 :
  (let* s := noek_create 0 (hex "2BD6459F82C5B300952C49104881FF48") in
   let* c := noek_encrypt s (hex "4765F3DA10CD3D0473867742B5E5CC3C") in
   let* p := noek_decrypt s c in Ok (c, p)) =
  Ok (hex "EA024714AD5C4D84EA024714AD5C4D84", hex "4765F3DA10CD3D0473867742B5E5CC3C").
Proof. vm_compute. reflexivity. Qed.

(** /repo/test/block/noekeon.c *)
Example knoekeon_kat_2 :
  (let* s := noek_create 0 (hex "80000000000000000000000000000000") in
   let* c := noek_encrypt s (hex "00000000000000000000000000000000") in
   let* p := noek_decrypt s c in Ok (c, p)) =
  Ok (hex "EA6552BA793546C261E4B3E90433F5A2", hex "00000000000000000000000000000000").
Proof. vm_compute. reflexivity. Qed.
