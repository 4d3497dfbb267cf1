(** Generated by tools/kats.py from /repo/test/block. *)
From Coq Require Import NArith List String.
From Verif Require Import Lib.Res Lib.Hex Model.Seed.
Import ListNotations.
Local Open Scope N_scope.

(** /repo/test/block/seed.c *)
Example kseed_kat_1 :
  (let* s := seed_create 0 (hex "000102030405060708090A0B0C0D0E0F") in
   let* c := seed_encrypt s (hex "4E5EB514821A9AA560A7D4AB9A692254") in
   let* p := seed_decrypt s c in Ok (c, p)) =
  Ok (hex "00112233445566778899AABBCCDDEEFF", hex "4E5EB514821A9AA560A7D4AB9A692254").
Proof. vm_compute. reflexivity. Qed.

(** /repo/test/block/seed.c *)
Example kseed_kat_2 :
  (let* s := seed_create 0 (hex "80000000000000000000000000000000") in
   let* c := seed_encrypt s (hex "00000000000000000000000000000000") in
   let* p := seed_decrypt s c in Ok (c, p)) =
  Ok (hex "4830626EF57F0946654E1CE4C2DDDC6F", hex "00000000000000000000000000000000").
Proof. vm_compute. reflexivity. Qed.
