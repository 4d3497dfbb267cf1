(** Generated by tools/kats.py from /repo/test/block. *)
From Coq Require Import NArith List String.
From Verif Require Import Lib.Res Lib.Hex Model.Lea.
Import ListNotations.
Local Open Scope N_scope.

(** /repo/test/block/lea.c *)
Example klea_kat_1 :
  (let* s := lea_create 0 (hex "0F1E2D3C4B5A69788796A5B4C3D2E1F0") in
   let* c := lea_encrypt s (hex "101112131415161718191A1B1C1D1E1F") in
   let* p := lea_decrypt s c in Ok (c, p)) =
  Ok (hex "9FC84E3528C6C6185532C7A704648BFD", hex "101112131415161718191A1B1C1D1E1F").
Proof. vm_compute. reflexivity. Qed.

(** /repo/test/block/lea.c *)
Example klea_kat_2 :
  (let* s := lea_create 0 (hex "0F1E2D3C4B5A69788796A5B4C3D2E1F0F0E1D2C3B4A59687") in
   let* c := lea_encrypt s (hex "202122232425262728292A2B2C2D2E2F") in
   let* p := lea_decrypt s c in Ok (c, p)) =
  Ok (hex "6FB95E325AAD1B878CDCF5357674C6F2", hex "202122232425262728292A2B2C2D2E2F").
Proof. vm_compute. reflexivity. Qed.

(** /repo/test/block/lea.c *)
Example klea_kat_3 :
  (let* s := lea_create 0 (hex "0F1E2D3C4B5A69788796A5B4C3D2E1F0F0E1D2C3B4A5968778695A4B3C2D1E0F") in
   let* c := lea_encrypt s (hex "303132333435363738393A3B3C3D3E3F") in
   let* p := lea_decrypt s c in Ok (c, p)) =
  Ok (hex "D651AFF647B189C13A8900CA27F9E197", hex "303132333435363738393A3B3C3D3E3F").
Proof. vm_compute. reflexivity. Qed.
