(** Generated by tools/kats.py from /repo/test/block. *)
From Coq Require Import NArith List String.
From Verif Require Import Lib.Res Lib.Hex Model.Speck.
Import ListNotations.
Local Open Scope N_scope.

(** /repo/test/block/speck32.c *)
Example kspeck32_kat_1 :
  (let* s := speck_create speck32 0 (hex "0001080910111819") in
   let* c := speck_encrypt speck32 s (hex "4C697465") in
   let* p := speck_decrypt speck32 s c in Ok (c, p)) =
  Ok (hex "F24268A8", hex "4C697465").
Proof. vm_compute. reflexivity. Qed.

(** /repo/test/block/speck64.c *)
Example kspeck64_kat_1 :
  (let* s := speck_create speck64 0 (hex "0001020308090A0B10111213") in
   let* c := speck_encrypt speck64 s (hex "65616E7320466174") in
   let* p := speck_decrypt speck64 s c in Ok (c, p)) =
  Ok (hex "6C947541EC52799F", hex "65616E7320466174").
Proof. vm_compute. reflexivity. Qed.

(** /repo/test/block/speck64.c *)
Example kspeck64_kat_2 :
  (let* s := speck_create speck64 0 (hex "0001020308090A0B1011121318191A1B") in
   let* c := speck_encrypt speck64 s (hex "2D4375747465723B") in
   let* p := speck_decrypt speck64 s c in Ok (c, p)) =
  Ok (hex "8B024E4548A56F8C", hex "2D4375747465723B").
Proof. vm_compute. reflexivity. Qed.

(** /repo/test/block/speck128.c *)
Example kspeck128_kat_1 :
  (let* s := speck_create speck128 0 (hex "000102030405060708090A0B0C0D0E0F") in
   let* c := speck_encrypt speck128 s (hex "206D616465206974206571756976616C") in
   let* p := speck_decrypt speck128 s c in Ok (c, p)) =
  Ok (hex "180D575CDFFE60786532787951985DA6", hex "206D616465206974206571756976616C").
Proof. vm_compute. reflexivity. Qed.

(** /repo/test/block/speck128.c *)
Example kspeck128_kat_2 :
  (let* s := speck_create speck128 0 (hex "000102030405060708090A0B0C0D0E0F1011121314151617") in
   let* c := speck_encrypt speck128 s (hex "656E7420746F20436869656620486172") in
   let* p := speck_decrypt speck128 s c in Ok (c, p)) =
  Ok (hex "86183CE05D18BCF9665513133ACFE41B", hex "656E7420746F20436869656620486172").
Proof. vm_compute. reflexivity. Qed.

(** /repo/test/block/speck128.c *)
Example kspeck128_kat_3 :
  (let* s := speck_create speck128 0 (hex "000102030405060708090A0B0C0D0E0F101112131415161718191A1B1C1D1E1F") in
   let* c := speck_encrypt speck128 s (hex "706F6F6E65722E20496E2074686F7365") in
   let* p := speck_decrypt speck128 s c in Ok (c, p)) =
  Ok (hex "438F189C8DB4EE4E3EF5C00504010941", hex "706F6F6E65722E20496E2074686F7365").
Proof. vm_compute. reflexivity. Qed.
