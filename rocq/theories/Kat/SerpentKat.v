(** Generated by tools/kats.py from /repo/test/block. *)
From Coq Require Import NArith List String.
From Verif Require Import Lib.Res Lib.Hex Model.Serpent.
Import ListNotations.
Local Open Scope N_scope.

(** /repo/test/block/serpent.c *)
Example kserpent_kat_1 :
  (let* s := serpent_create 0 (hex "FFFFFFFFFFFFFFFFFFFFFFFFFFFFFFFF") in
   let* c := serpent_encrypt s (hex "FFFFFFFFFFFFFFFFFFFFFFFFFFFFFFFF") in
   let* p := serpent_decrypt s c in Ok (c, p)) =
  Ok (hex "2DEE675B6B7401367DA2A80FB44B8065", hex "FFFFFFFFFFFFFFFFFFFFFFFFFFFFFFFF").
Proof. vm_compute. reflexivity. Qed.

(** /repo/test/block/serpent.c *)
Example kserpent_kat_2 :
  (let* s := serpent_create 0 (hex "FFFFFFFFFFFFFFFFFFFFFFFFFFFFFFFFFFFFFFFFFFFFFFFF") in
   let* c := serpent_encrypt s (hex "FFFFFFFFFFFFFFFFFFFFFFFFFFFFFFFF") in
   let* p := serpent_decrypt s c in Ok (c, p)) =
  Ok (hex "08FC09BD2580A3FFBC8453FAF21417C0", hex "FFFFFFFFFFFFFFFFFFFFFFFFFFFFFFFF").
Proof. vm_compute. reflexivity. Qed.

(** /repo/test/block/serpent.c *)
Example kserpent_kat_3 :
  (let* s := serpent_create 0 (hex "FFFFFFFFFFFFFFFFFFFFFFFFFFFFFFFFFFFFFFFFFFFFFFFFFFFFFFFFFFFFFFFF") in
   let* c := serpent_encrypt s (hex "FFFFFFFFFFFFFFFFFFFFFFFFFFFFFFFF") in
   let* p := serpent_decrypt s c in Ok (c, p)) =
  Ok (hex "6AC7579D9377845A816CA6D758F3FEFF", hex "FFFFFFFFFFFFFFFFFFFFFFFFFFFFFFFF").
Proof. vm_compute. reflexivity. Qed.
