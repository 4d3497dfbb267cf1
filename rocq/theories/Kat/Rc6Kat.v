(** Generated by tools/kats.py from /repo/test/block. *)
From Coq Require Import NArith List String.
From Verif Require Import Lib.Res Lib.Hex Model.Rc6.
Import ListNotations.
Local Open Scope N_scope.

(** /repo/test/block/rc6.c *)
Example krc6_kat_1 :
  (let* s := rc6_create 0 (hex "2BD6459F82C5B300952C49104881FF48") in
   let* c := rc6_encrypt s (hex "DE60BD4F1C955322D252B7957771B8B5") in
   let* p := rc6_decrypt s c in Ok (c, p)) =
  Ok (hex "EA024714AD5C4D84EA024714AD5C4D84", hex "DE60BD4F1C955322D252B7957771B8B5").
Proof. vm_compute. reflexivity. Qed.

(** /repo/test/block/rc6.c *)
Example krc6_kat_2 :
  (let* s := rc6_create 0 (hex "80000000000000000000000000000000") in
   let* c := rc6_encrypt s (hex "00000000000000000000000000000000") in
   let* p := rc6_decrypt s c in Ok (c, p)) =
  Ok (hex "1AD578A02A08162850A15A1552A17AD4", hex "00000000000000000000000000000000").
Proof. vm_compute. reflexivity. Qed.

(** /repo/test/block/rc6.c *)
Example krc6_kat_3 :
  (let* s := rc6_create 0 (hex "2BD6459F82C5B300952C49104881FF482BD6459F82C5B300") in
   let* c := rc6_encrypt s (hex "80BE5109FBAE029A4337E82A13C6F822") in
   let* p := rc6_decrypt s c in Ok (c, p)) =
  Ok (hex "EA024714AD5C4D84EA024714AD5C4D84", hex "80BE5109FBAE029A4337E82A13C6F822").
Proof. vm_compute. reflexivity. Qed.
