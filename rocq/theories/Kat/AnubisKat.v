(** Generated by tools/kats.py from /repo/test/block. *)
From Coq Require Import NArith List String.
From Verif Require Import Lib.Res Lib.Hex Model.Anubis.
Import ListNotations.
Local Open Scope N_scope.

(** /repo/test/block/anubis.c *)
Example kanubis_kat_1 :
  (let* s := anubis_create 0 (hex "80000000000000000000000000000000") in
   let* c := anubis_encrypt s (hex "00000000000000000000000000000000") in
   let* p := anubis_decrypt s c in Ok (c, p)) =
  Ok (hex "B835BDC334829D8371BFA371E4B3C4FD", hex "00000000000000000000000000000000").
Proof. vm_compute. reflexivity. Qed.

(** /repo/test/block/anubis.c *)
Example kanubis_kat_2 :
  (let* s := anubis_create 0 (hex "00000000000000000000000000000001") in
   let* c := anubis_encrypt s (hex "00000000000000000000000000000000") in
   let* p := anubis_decrypt s c in Ok (c, p)) =
  Ok (hex "E6141EAFEBE0593C48E1CDF21BBAA189", hex "00000000000000000000000000000000").
Proof. vm_compute. reflexivity. Qed.

(** /repo/test/block/anubis.c *)
Example kanubis_kat_3 :
  (let* s := anubis_create 0 (hex "8000000000000000000000000000000000000000") in
   let* c := anubis_encrypt s (hex "00000000000000000000000000000000") in
   let* p := anubis_decrypt s c in Ok (c, p)) =
  Ok (hex "9759794B5CA0707324EFB35867CAD4B3", hex "00000000000000000000000000000000").
Proof. vm_compute. reflexivity. Qed.
