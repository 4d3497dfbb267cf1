(** Generated by tools/kats.py from /repo/test/block. *)
From Coq Require Import NArith List String.
From Verif Require Import Lib.Res Lib.Hex Model.Simon.
Import ListNotations.
Local Open Scope N_scope.

(** /repo/test/block/simon32.c *)
Example ksimon32_kat_1 :
  (let* s := simon_create simon32 0 (hex "0001080910111819") in
   let* c := simon_encrypt simon32 s (hex "77686565") in
   let* p := simon_decrypt simon32 s c in Ok (c, p)) =
  Ok (hex "BBE99BC6", hex "77686565").
Proof. vm_compute. reflexivity. Qed.

(** /repo/test/block/simon64.c *)
Example ksimon64_kat_1 :
  (let* s := simon_create simon64 0 (hex "0001020308090A0B10111213") in
   let* c := simon_encrypt simon64 s (hex "636C696E6720726F") in
   let* p := simon_decrypt simon64 s c in Ok (c, p)) =
  Ok (hex "C88F1A117FE2A25C", hex "636C696E6720726F").
Proof. vm_compute. reflexivity. Qed.

(** /repo/test/block/simon64.c *)
Example ksimon64_kat_2 :
  (let* s := simon_create simon64 0 (hex "0001020308090A0B1011121318191A1B") in
   let* c := simon_encrypt simon64 s (hex "756E64206C696B65") in
   let* p := simon_decrypt simon64 s c in Ok (c, p)) =
  Ok (hex "7AA0DFB920FCC844", hex "756E64206C696B65").
Proof. vm_compute. reflexivity. Qed.

(** /repo/test/block/simon128.c *)
Example ksimon128_kat_1 :
  (let* s := simon_create simon128 0 (hex "000102030405060708090A0B0C0D0E0F") in
   let* c := simon_encrypt simon128 s (hex "2074726176656C6C6572732064657363") in
   let* p := simon_decrypt simon128 s c in Ok (c, p)) =
  Ok (hex "BC0B4EF82A83AA653FFE541E1E1B6849", hex "2074726176656C6C6572732064657363").
Proof. vm_compute. reflexivity. Qed.

(** /repo/test/block/simon128.c *)
Example ksimon128_kat_2 :
  (let* s := simon_create simon128 0 (hex "000102030405060708090A0B0C0D0E0F1011121314151617") in
   let* c := simon_encrypt simon128 s (hex "72696265207768656E20746865726520") in
   let* p := simon_decrypt simon128 s c in Ok (c, p)) =
  Ok (hex "5BB897256E8D9C6C4F0DDCFCEF61ACC4", hex "72696265207768656E20746865726520").
Proof. vm_compute. reflexivity. Qed.

(** /repo/test/block/simon128.c *)
Example ksimon128_kat_3 :
  (let* s := simon_create simon128 0 (hex "000102030405060708090A0B0C0D0E0F101112131415161718191A1B1C1D1E1F") in
   let* c := simon_encrypt simon128 s (hex "697320612073696D6F6F6D20696E2074") in
   let* p := simon_decrypt simon128 s c in Ok (c, p)) =
  Ok (hex "68B8E7EF872AF73BA0A3C8AF79552B8D", hex "697320612073696D6F6F6D20696E2074").
Proof. vm_compute. reflexivity. Qed.
