(** Generated by tools/kats.py from /repo/test/block. *)
From Coq Require Import NArith List String.
From Verif Require Import Lib.Res Lib.Hex Model.Rijndael.
Import ListNotations.
Local Open Scope N_scope.

(** /repo/test/block/rijndael128.c *)
Example krijndael128_kat_1 :
  (let* s := rijndael128_create 0 (hex "FFFFFFFFFFFFFFFFFFFFFFFFFFFFFFFF") in
   let* c := rijndael128_encrypt s (hex "FFFFFFFFFFFFFFFFFFFFFFFFFFFFFFFF") in
   let* p := rijndael128_decrypt s c in Ok (c, p)) =
  Ok (hex "BCBF217CB280CF30B2517052193AB979", hex "FFFFFFFFFFFFFFFFFFFFFFFFFFFFFFFF").
Proof. vm_compute. reflexivity. Qed.

(** /repo/test/block/rijndael128.c *)
Example krijndael128_kat_2 :
  (let* s := rijndael128_create 0 (hex "FFFFFFFFFFFFFFFFFFFFFFFFFFFFFFFFFFFFFFFFFFFFFFFF") in
   let* c := rijndael128_encrypt s (hex "FFFFFFFFFFFFFFFFFFFFFFFFFFFFFFFF") in
   let* p := rijndael128_decrypt s c in Ok (c, p)) =
  Ok (hex "BF70034E29FF718EE48DDF36BB8174EF", hex "FFFFFFFFFFFFFFFFFFFFFFFFFFFFFFFF").
Proof. vm_compute. reflexivity. Qed.

(** /repo/test/block/rijndael128.c *)
Example krijndael128_kat_3 :
  (let* s := rijndael128_create 0 (hex "FFFFFFFFFFFFFFFFFFFFFFFFFFFFFFFFFFFFFFFFFFFFFFFFFFFFFFFFFFFFFFFF") in
   let* c := rijndael128_encrypt s (hex "FFFFFFFFFFFFFFFFFFFFFFFFFFFFFFFF") in
   let* p := rijndael128_decrypt s c in Ok (c, p)) =
  Ok (hex "D5F93D6D3311CB309F23621B02FBD5E2", hex "FFFFFFFFFFFFFFFFFFFFFFFFFFFFFFFF").
Proof. vm_compute. reflexivity. Qed.

(** /repo/test/block/rijndael256.c *)
Example krijndael256_kat_1 :
  (let* s := rijndael256_create 0 (hex "FFFFFFFFFFFFFFFFFFFFFFFFFFFFFFFFFFFFFFFFFFFFFFFFFFFFFFFFFFFFFFFF") in
   let* c := rijndael256_encrypt s (hex "FFFFFFFFFFFFFFFFFFFFFFFFFFFFFFFFFFFFFFFFFFFFFFFFFFFFFFFFFFFFFFFF") in
   let* p := rijndael256_decrypt s c in Ok (c, p)) =
  Ok (hex "F36CB6C7A7572F19307A31E4EC4CA4C82D2731FB21F59CAF133FE816A54424A5", hex "FFFFFFFFFFFFFFFFFFFFFFFFFFFFFFFFFFFFFFFFFFFFFFFFFFFFFFFFFFFFFFFF").
Proof. vm_compute. reflexivity. Qed.
