(** Generated by tools/skats.py from /repo/test/stream. *)
From Coq Require Import NArith List String.
From Verif Require Import Lib.Res Lib.Hex Model.Mem Model.Chacha Model.Salsa20 Model.Rc4.
Import ListNotations.
Local Open Scope N_scope.

(** one call in place on a buffer at address 0 *)
Definition run_stream {S} (op : S -> mem -> nat -> nat -> nat -> res (S * mem)) (s : S) (l : list N) : res (list N) :=
  let* p := op s (fun a => nth a l 0) 0%nat 0%nat (List.length l) in Ok (rd (snd p) 0 (List.length l)).

(** /repo/test/stream/chacha.c *)
Example chacha_kat_1 :
  (let* s := chacha_create 8 (hex "01000000000000000000000000000000") (hex "0000000000000000") in
   run_stream chacha_crypt s (hex "00000000000000000000000000000000000000000000000000000000000000000000000000000000000000000000000000000000000000000000000000000000")) =
  Ok (hex "03A7669888605A0765E8357475E58673F94FC8161DA76C2A3AA2F3CAF9FE5449E0FCF38EB882656AF83D430D410927D55C972AC4C92AB9DA3713E19F761EAA14").
Proof. vm_compute. reflexivity. Qed.

(** /repo/test/stream/chacha.c *)
Example chacha_kat_2 :
  (let* s := chacha_create 8 (hex "00000000000000000000000000000000") (hex "0100000000000000") in
   run_stream chacha_crypt s (hex "00000000000000000000000000000000000000000000000000000000000000000000000000000000000000000000000000000000000000000000000000000000")) =
  Ok (hex "25F5BEC6683916FF44BCCD12D102E692176663F4CAC53E719509CA74B6B2EEC85DA4236FB29902012ADC8F0D86C8187D25CD1C486966930D0204C4EE88A6AB35").
Proof. vm_compute. reflexivity. Qed.

(** /repo/test/stream/chacha.c *)
Example chacha_kat_3 :
  (let* s := chacha_create 8 (hex "0100000000000000000000000000000000000000000000000000000000000000") (hex "0000000000000000") in
   run_stream chacha_crypt s (hex "00000000000000000000000000000000000000000000000000000000000000000000000000000000000000000000000000000000000000000000000000000000")) =
  Ok (hex "CF5EE9A0494AA9613E05D5ED725B804B12F4A465EE635ACC3A311DE8740489EA289D04F43C7518DB56EB4433E498A1238CD8464D3763DDBB9222EE3BD8FAE3C8").
Proof. vm_compute. reflexivity. Qed.

(** /repo/test/stream/chacha.c *)
Example chacha_kat_4 :
  (let* s := chacha_create 0 (hex "0000000000000000000000000000000000000000000000000000000000000001") (hex "000000000000000000000002") in
   run_stream chacha_crypt s (hex "00000000000000000000000000000000000000000000000000000000000000000000000000000000000000000000000000000000000000000000000000000000416E79207375626D")) =
  Ok (hex "ECFA254F845F647473D3CB140DA9E87606CB33066C447B87BC2666DDE3FBB739A371C9EC7ABCB4CFA9211F7D90F64C2D07F89E5CF9B93E330A6E4C08AF5BA6D5A3FBF07DF3FA2FDE").
Proof. vm_compute. reflexivity. Qed.

(** /repo/test/stream/chacha.c *)
Example chacha_kat_5 :
  (let* s := chacha_create 0 (hex "808182838485868788898A8B8C8D8E8F909192939495969798999A9B9C9D9E9F") (hex "404142434445464748494A4B4C4D4E4F5051525354555658") in
   run_stream chacha_crypt s (hex "5468652064686F6C65202870726F6E6F756E6365642022646F6C65222920697320616C736F206B6E6F776E2061732074686520417369617469632077696C6420646F672C20726564")) =
  Ok (hex "4559ABBA4E48C16102E8BB2C05E6947F50A786DE162F9B0B7E592A9B53D0D4E98D8D6410D540A1A6375B26D80DACE4FAB52384C731ACBF16A5923C0C48D3575D4D0D2C673B666FAA").
Proof. vm_compute. reflexivity. Qed.

(** /repo/test/stream/salsa20.c *)
Example salsa20_kat_1 :
  (let* s := salsa20_create 0 (hex "0F62B5085BAE0154A7FA4DA0F34699EC") (hex "288FF65DC42B92F9") in
   run_stream salsa20_crypt s (hex "00000000000000000000000000000000000000000000000000000000000000000000000000000000000000000000000000000000000000000000000000000000")) =
  Ok (hex "71DAEE5142D0728B41B6597933EBF467E43279E30978677078941602629CBF68B73D6BD2C95F118D2B3E6EC955DABB6DC61C4143BC9A9B32B99DBE6866166DC0").
Proof. vm_compute. reflexivity. Qed.

(** /repo/test/stream/salsa20.c *)
Example salsa20_kat_2 :
  (let* s := salsa20_create 0 (hex "0558ABFE51A4F74A9DF04396E93C8FE23588DB2E81D4277ACD2073C6196CBF12") (hex "167DE44BB21980E7") in
   run_stream salsa20_crypt s (hex "00000000000000000000000000000000000000000000000000000000000000000000000000000000000000000000000000000000000000000000000000000000")) =
  Ok (hex "3944F6DC9F85B128083879FDF190F7DEE4053A07BC09896D51D0690BD4DA4AC1062F1E47D3D0716F80A9B4D85E6D6085EE06947601C85F1A27A2F76E45A6AA87").
Proof. vm_compute. reflexivity. Qed.

(** /repo/test/stream/salsa20.c *)
Example salsa20_kat_3 :
  (let* s := salsa20_create 0 (hex "A6A7251C1E72916D11C2CB214D3C252539121D8E234E652D651FA4C8CFF88030") (hex "9E645A74E9E0A60D8243ACD9177AB51A1BEB8D5A2F5D700C") in
   run_stream salsa20_crypt s (hex "093C5E5585579625337BD3AB619D615760D8C5B224A85B1D0EFE0EB8A7EE163ABB0376529FCC09BAB506C618E13CE777D82C3AE9D1A6F972D4160287CBFE60BF2130FC0A6FF6049D")) =
  Ok (hex "B2AF688E7D8FC4B508C05CC39DD583D6714322C64D7F3E63147AEDE2D9534934B04FF6F337B031815CD094BDBC6D7A92077DCE709412286822EF0737EE47F6B7FFA22F9D53F11DD2").
Proof. vm_compute. reflexivity. Qed.

(** the usual vector, not from the repository *)
Example rc4_kat_1 :
  (let* s := rc4_create 0 (text "Key") [] in run_stream rc4_crypt s (text "Plaintext")) = Ok (hex "BBF316E8D940AF0AD3").
Proof. vm_compute. reflexivity. Qed.
