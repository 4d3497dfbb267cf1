(** Generated by tools/kats.py from /repo/test/block. *)
From Coq Require Import NArith List String.
From Verif Require Import Lib.Res Lib.Hex Model.Twofish.
Import ListNotations.
Local Open Scope N_scope.

(** /repo/test/block/twofish.c *)
Example ktwofish_kat_1 :
  (let* s := twofish_create 0 (hex "9F589F5CF6122C32B6BFEC2F2AE8C35A") in
   let* c := twofish_encrypt s (hex "D491DB16E7B1C39E86CB086B789F5419") in
   let* p := twofish_decrypt s c in Ok (c, p)) =
  Ok (hex "019F9809DE1711858FAAC3A3BA20FBC3", hex "D491DB16E7B1C39E86CB086B789F5419").
Proof. vm_compute. reflexivity. Qed.

(** /repo/test/block/twofish.c *)
Example ktwofish_kat_2 :
  (let* s := twofish_create 0 (hex "88B2B2706B105E36B446BB6D731A1E88EFA71F788965BD44") in
   let* c := twofish_encrypt s (hex "39DA69D6BA4997D585B6DC073CA341B2") in
   let* p := twofish_decrypt s c in Ok (c, p)) =
  Ok (hex "182B02D81497EA45F9DAACDC29193A65", hex "39DA69D6BA4997D585B6DC073CA341B2").
Proof. vm_compute. reflexivity. Qed.

(** /repo/test/block/twofish.c *)
Example ktwofish_kat_3 :
  (let* s := twofish_create 0 (hex "D43BB7556EA32E46F2A282B7D45B4E0D57FF739D4DC92C1BD7FC01700CC8216F") in
   let* c := twofish_encrypt s (hex "90AFE91BB288544F2C32DC239B2635E6") in
   let* p := twofish_decrypt s c in Ok (c, p)) =
  Ok (hex "6CB4561C40BF0A9705931CB6D408E7FA", hex "90AFE91BB288544F2C32DC239B2635E6").
Proof. vm_compute. reflexivity. Qed.
