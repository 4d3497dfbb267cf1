(** Generated by tools/kats.py from /repo/test/block. *)
From Coq Require Import NArith List String.
From Verif Require Import Lib.Res Lib.Hex Model.Shacal2.
Import ListNotations.
Local Open Scope N_scope.

(** /repo/test/block/shacal2.c *)
Example kshacal2_kat_1 :
  (let* s := shacal2_create 0 (hex "000102030405060708090A0B0C0D0E0F101112131415161718191A1B1C1D1E1F202122232425262728292A2B2C2D2E2F303132333435363738393A3B3C3D3E3F") in
   let* c := shacal2_encrypt s (hex "98BCC10405AB0BFC686BECECAAD01AC19B452511BCEB9CB094F905C51CA45430") in
   let* p := shacal2_decrypt s c in Ok (c, p)) =
  Ok (hex "00112233445566778899AABBCCDDEEFF102132435465768798A9BACBDCEDFE0F", hex "98BCC10405AB0BFC686BECECAAD01AC19B452511BCEB9CB094F905C51CA45430").
Proof. vm_compute. reflexivity. Qed.

(** /repo/test/block/shacal2.c *)
Example kshacal2_kat_2 :
  (let* s := shacal2_create 0 (hex "80000000000000000000000000000000000000000000000000000000000000000000000000000000000000000000000000000000000000000000000000000000") in
   let* c := shacal2_encrypt s (hex "0000000000000000000000000000000000000000000000000000000000000000") in
   let* p := shacal2_decrypt s c in Ok (c, p)) =
  Ok (hex "361AB6322FA9E7A7BB23818D839E01BDDAFDF47305426EDD297AEDB9F6202BAE", hex "0000000000000000000000000000000000000000000000000000000000000000").
Proof. vm_compute. reflexivity. Qed.
