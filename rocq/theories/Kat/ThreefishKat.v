(** Generated by tools/kats.py from /repo/test/block. *)
From Coq Require Import NArith List String.
From Verif Require Import Lib.Res Lib.Hex Model.Threefish.
Import ListNotations.
Local Open Scope N_scope.

(** /repo/test/block/threefish256.c *)
Example kthreefish256_kat_1 :
  (let* s := let* s0 := tf_create threefish256 0 (hex "101112131415161718191A1B1C1D1E1F202122232425262728292A2B2C2D2E2F") in tf_tweak s0 (hex "000102030405060708090A0B0C0D0E0F") in
   let* c := tf_encrypt threefish256 s (hex "FFFEFDFCFBFAF9F8F7F6F5F4F3F2F1F0EFEEEDECEBEAE9E8E7E6E5E4E3E2E1E0") in
   let* p := tf_decrypt threefish256 s c in Ok (c, p)) =
  Ok (hex "E0D091FF0EEA8FDFC98192E62ED80AD59D865D08588DF476657056B5955E97DF", hex "FFFEFDFCFBFAF9F8F7F6F5F4F3F2F1F0EFEEEDECEBEAE9E8E7E6E5E4E3E2E1E0").
Proof. vm_compute. reflexivity. Qed.

(** /repo/test/block/threefish512.c *)
Example kthreefish512_kat_1 :
  (let* s := let* s0 := tf_create threefish512 0 (hex "101112131415161718191A1B1C1D1E1F202122232425262728292A2B2C2D2E2F303132333435363738393A3B3C3D3E3F404142434445464748494A4B4C4D4E4F") in tf_tweak s0 (hex "000102030405060708090A0B0C0D0E0F") in
   let* c := tf_encrypt threefish512 s (hex "FFFEFDFCFBFAF9F8F7F6F5F4F3F2F1F0EFEEEDECEBEAE9E8E7E6E5E4E3E2E1E0DFDEDDDCDBDAD9D8D7D6D5D4D3D2D1D0CFCECDCCCBCAC9C8C7C6C5C4C3C2C1C0") in
   let* p := tf_decrypt threefish512 s c in Ok (c, p)) =
  Ok (hex "E304439626D45A2CB401CAD8D636249A6338330EB06D45DD8B36B90E97254779272A0A8D99463504784420EA18C9A725AF11DFFEA10162348927673D5C1CAF3D", hex "FFFEFDFCFBFAF9F8F7F6F5F4F3F2F1F0EFEEEDECEBEAE9E8E7E6E5E4E3E2E1E0DFDEDDDCDBDAD9D8D7D6D5D4D3D2D1D0CFCECDCCCBCAC9C8C7C6C5C4C3C2C1C0").
Proof. vm_compute. reflexivity. Qed.

(** /repo/test/block/threefish1024.c *)
Example kthreefish1024_kat_1 :
  (let* s := let* s0 := tf_create threefish1024 0 (hex "101112131415161718191A1B1C1D1E1F202122232425262728292A2B2C2D2E2F303132333435363738393A3B3C3D3E3F404142434445464748494A4B4C4D4E4F505152535455565758595A5B5C5D5E5F606162636465666768696A6B6C6D6E6F707172737475767778797A7B7C7D7E7F808182838485868788898A8B8C8D8E8F") in tf_tweak s0 (hex "000102030405060708090A0B0C0D0E0F") in
   let* c := tf_encrypt threefish1024 s (hex "FFFEFDFCFBFAF9F8F7F6F5F4F3F2F1F0EFEEEDECEBEAE9E8E7E6E5E4E3E2E1E0DFDEDDDCDBDAD9D8D7D6D5D4D3D2D1D0CFCECDCCCBCAC9C8C7C6C5C4C3C2C1C0BFBEBDBCBBBAB9B8B7B6B5B4B3B2B1B0AFAEADACABAAA9A8A7A6A5A4A3A2A1A09F9E9D9C9B9A999897969594939291908F8E8D8C8B8A89888786858483828180") in
   let* p := tf_decrypt threefish1024 s c in Ok (c, p)) =
  Ok (hex "A6654DDBD73CC3B05DD777105AA849BCE49372EAAFFC5568D254771BAB85531C94F780E7FFAAE430D5D8AF8C70EEBBE1760F3B42B737A89CB363490D670314BD8AA41EE63C2E1F45FBD477922F8360B388D6125EA6C7AF0AD7056D01796E90C83313F4150A5716B30ED5F569288AE974CE2B4347926FCE57DE44512177DD7CDE", hex "FFFEFDFCFBFAF9F8F7F6F5F4F3F2F1F0EFEEEDECEBEAE9E8E7E6E5E4E3E2E1E0DFDEDDDCDBDAD9D8D7D6D5D4D3D2D1D0CFCECDCCCBCAC9C8C7C6C5C4C3C2C1C0BFBEBDBCBBBAB9B8B7B6B5B4B3B2B1B0AFAEADACABAAA9A8A7A6A5A4A3A2A1A09F9E9D9C9B9A999897969594939291908F8E8D8C8B8A89888786858483828180").
Proof. vm_compute. reflexivity. Qed.
