(** Generated by tools/kats.py from /repo/test/block. *)
From Coq Require Import NArith List String.
From Verif Require Import Lib.Res Lib.Hex Model.Sparx.
Import ListNotations.
Local Open Scope N_scope.

(** /repo/test/block/crax_s.c *)
Example kcrax_s_kat_1 :
  (let* s := crax_create 0 (hex "85AE72425490C6F9E0C1D0042E386802") in
   let* c := crax_encrypt s (hex "4D2E0BB6BBC6332F") in
   let* p := crax_decrypt s c in Ok (c, p)) =
  Ok (hex "0078B2CAF2402FAF", hex "4D2E0BB6BBC6332F").
Proof. vm_compute. reflexivity. Qed.

(** /repo/test/block/trax_m.c *)
Example ktrax_m_kat_1 :
  (let* s := let* s0 := trax_create trax_m 0 (hex "DF639804132FCCAE5EA5CED29CDBA86D") in trax_set_tweak trax_m s0 (hex "44113012F373C1AC") in
   let* c := trax_encrypt trax_m s (hex "C9992F8038623E86BAF8E54679C6DB90") in
   let* p := trax_decrypt trax_m s c in Ok (c, p)) =
  Ok (hex "738F767FE320D417C16B8673159A6DAE", hex "C9992F8038623E86BAF8E54679C6DB90").
Proof. vm_compute. reflexivity. Qed.

(** /repo/test/block/trax_l.c *)
Example ktrax_l_kat_1 :
  (let* s := let* s0 := trax_create trax_l 0 (hex "DF639804132FCCAE5EA5CED29CDBA86DE5FDF0504B2CF05F56808B95D4D8CA96") in trax_set_tweak trax_l s0 (hex "44113012F373C1ACEB9CED50EBD4F031") in
   let* c := trax_encrypt trax_l s (hex "C9992F8038623E86BAF8E54679C6DB9025D38589E4DC47986BE90BB8390B5DD0") in
   let* p := trax_decrypt trax_l s c in Ok (c, p)) =
  Ok (hex "6E60A404845F392624912B842FF3AD8E05CB379BEB557B9F90AA99C6485FCE3B", hex "C9992F8038623E86BAF8E54679C6DB9025D38589E4DC47986BE90BB8390B5DD0").
Proof. vm_compute. reflexivity. Qed.
