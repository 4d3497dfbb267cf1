(** Generated by tools/hkats.py from /repo/test/hash. *)
From Coq Require Import NArith List String.
From Verif Require Import Lib.Res Lib.Hex Model.HashApi Model.Keccak Model.Md5 Model.Sha1 Model.Sha2 Model.Tiger Model.Whirlpool.
Import ListNotations.
Local Open Scope N_scope.

(** /repo/test/hash/md5.c *)
Example md5_kat_1 :
  hash_all hash_md5 0 [] (hex "") 16 = Ok (hex "D41D8CD98F00B204E9800998ECF8427E").
Proof. vm_compute. reflexivity. Qed.

(** /repo/test/hash/md5.c *)
Example md5_kat_2 :
  hash_all hash_md5 0 [] (hex "61") 16 = Ok (hex "0CC175B9C0F1B6A831C399E269772661").
Proof. vm_compute. reflexivity. Qed.

(** /repo/test/hash/md5.c *)
Example md5_kat_3 :
  hash_all hash_md5 0 [] (hex "4142434445464748494A4B4C4D4E4F505152535455565758595A6162636465666768696A6B6C6D6E6F707172737475767778797A30313233343536373839") 16 = Ok (hex "D174AB98D277D9F5A5611C2C9F419D9F").
Proof. vm_compute. reflexivity. Qed.

(** /repo/test/hash/sha1.c *)
Example sha1_kat_1 :
  hash_all hash_sha1 0 [] (hex "") 20 = Ok (hex "DA39A3EE5E6B4B0D3255BFEF95601890AFD80709").
Proof. vm_compute. reflexivity. Qed.

(** /repo/test/hash/sha1.c *)
Example sha1_kat_2 :
  hash_all hash_sha1 0 [] (hex "61") 20 = Ok (hex "86F7E437FAA5A7FCE15D1DDCB9EAEAEA377667B8").
Proof. vm_compute. reflexivity. Qed.

(** /repo/test/hash/sha1.c *)
Example sha1_kat_3 :
  hash_all hash_sha1 0 [] (hex "4142434445464748494A4B4C4D4E4F505152535455565758595A6162636465666768696A6B6C6D6E6F707172737475767778797A30313233343536373839") 20 = Ok (hex "761C457BF73B14D27E9E9265C46F4B4DDA11F940").
Proof. vm_compute. reflexivity. Qed.

(** /repo/test/hash/sha2_256.c *)
Example sha2_256_kat_1 :
  hash_all hash_sha2_256 0 [] (hex "") 28 = Ok (hex "D14A028C2A3A2BC9476102BB288234C415A2B01F828EA62AC5B3E42F").
Proof. vm_compute. reflexivity. Qed.

(** /repo/test/hash/sha2_256.c *)
Example sha2_256_kat_2 :
  hash_all hash_sha2_256 0 [] (hex "") 32 = Ok (hex "E3B0C44298FC1C149AFBF4C8996FB92427AE41E4649B934CA495991B7852B855").
Proof. vm_compute. reflexivity. Qed.

(** /repo/test/hash/sha2_256.c *)
Example sha2_256_kat_3 :
  hash_all hash_sha2_256 0 [] (hex "61") 32 = Ok (hex "CA978112CA1BBDCAFAC231B39A23DC4DA786EFF8147C4E72B9807785AFEE48BB").
Proof. vm_compute. reflexivity. Qed.

(** /repo/test/hash/sha2_256.c *)
Example sha2_256_kat_4 :
  hash_all hash_sha2_256 0 [] (hex "4142434445464748494A4B4C4D4E4F505152535455565758595A6162636465666768696A6B6C6D6E6F707172737475767778797A30313233343536373839") 32 = Ok (hex "DB4BFCBD4DA0CD85A60C3C37D3FBD8805C77F15FC6B1FDFE614EE0A7C8FDB4C0").
Proof. vm_compute. reflexivity. Qed.

(** /repo/test/hash/sha2_512.c *)
Example sha2_512_kat_1 :
  hash_all hash_sha2_512 0 [] (hex "") 64 = Ok (hex "CF83E1357EEFB8BDF1542850D66D8007D620E4050B5715DC83F4A921D36CE9CE47D0D13C5D85F2B0FF8318D2877EEC2F63B931BD47417A81A538327AF927DA3E").
Proof. vm_compute. reflexivity. Qed.

(** /repo/test/hash/sha2_512.c *)
Example sha2_512_kat_2 :
  hash_all hash_sha2_512 0 [] (hex "61") 64 = Ok (hex "1F40FC92DA241694750979EE6CF582F2D5D7D28E18335DE05ABC54D0560E0F5302860C652BF08D560252AA5E74210546F369FBBBCE8C12CFC7957B2652FE9A75").
Proof. vm_compute. reflexivity. Qed.

(** /repo/test/hash/sha2_512.c *)
Example sha2_512_kat_3 :
  hash_all hash_sha2_512 0 [] (hex "4142434445464748494A4B4C4D4E4F505152535455565758595A6162636465666768696A6B6C6D6E6F707172737475767778797A30313233343536373839") 64 = Ok (hex "1E07BE23C26A86EA37EA810C8EC7809352515A970E9253C26F536CFC7A9996C45C8370583E0A78FA4A90041D71A4CEAB7423F19C71B9D5A3E01249F0BEBD5894").
Proof. vm_compute. reflexivity. Qed.

(** /repo/test/hash/sha2_512.c *)
Example sha2_512_kat_4 :
  hash_all hash_sha2_512 0 [] (hex "") 48 = Ok (hex "38B060A751AC96384CD9327EB1B1E36A21FDB71114BE07434C0CC7BF63F6E1DA274EDEBFE76F65FBD51AD2F14898B95B").
Proof. vm_compute. reflexivity. Qed.

(** /repo/test/hash/sha2_512.c *)
Example sha2_512_kat_5 :
  hash_all hash_sha2_512 0 [] (hex "61") 48 = Ok (hex "54A59B9F22B0B80880D8427E548B7C23ABD873486E1F035DCE9CD697E85175033CAA88E6D57BC35EFAE0B5AFD3145F31").
Proof. vm_compute. reflexivity. Qed.

(** /repo/test/hash/sha2_512.c *)
Example sha2_512_kat_6 :
  hash_all hash_sha2_512 0 [] (hex "4142434445464748494A4B4C4D4E4F505152535455565758595A6162636465666768696A6B6C6D6E6F707172737475767778797A30313233343536373839") 48 = Ok (hex "1761336E3F7CBFE51DEB137F026F89E01A448E3B1FAFA64039C1464EE8732F11A5341A6F41E0C202294736ED64DB1A84").
Proof. vm_compute. reflexivity. Qed.

(** /repo/test/hash/tiger.c *)
Example tiger_kat_1 :
  hash_all hash_tiger 0 [] (hex "") 20 = Ok (hex "3293AC630C13F0245F92BBB1766E16167A4E5849").
Proof. vm_compute. reflexivity. Qed.

(** /repo/test/hash/tiger.c *)
Example tiger_kat_2 :
  hash_all hash_tiger 0 [] (hex "61") 20 = Ok (hex "77BEFBEF2E7EF8AB2EC8F93BF587A7FC613E247F").
Proof. vm_compute. reflexivity. Qed.

(** /repo/test/hash/tiger.c *)
Example tiger_kat_3 :
  hash_all hash_tiger 0 [] (hex "4142434445464748494A4B4C4D4E4F505152535455565758595A6162636465666768696A6B6C6D6E6F707172737475767778797A30313233343536373839") 20 = Ok (hex "8DCEA680A17583EE502BA38A3C368651890FFBCC").
Proof. vm_compute. reflexivity. Qed.

(** /repo/test/hash/whirlpool.c *)
Example whirlpool_kat_1 :
  hash_all hash_whirlpool 0 [] (hex "") 64 = Ok (hex "19FA61D75522A4669B44E39C1D2E1726C530232130D407F89AFEE0964997F7A73E83BE698B288FEBCF88E3E03C4F0757EA8964E59B63D93708B138CC42A66EB3").
Proof. vm_compute. reflexivity. Qed.

(** /repo/test/hash/whirlpool.c *)
Example whirlpool_kat_2 :
  hash_all hash_whirlpool 0 [] (hex "61") 64 = Ok (hex "8ACA2602792AEC6F11A67206531FB7D7F0DFF59413145E6973C45001D0087B42D11BC645413AEFF63A42391A39145A591A92200D560195E53B478584FDAE231A").
Proof. vm_compute. reflexivity. Qed.

(** /repo/test/hash/whirlpool.c *)
Example whirlpool_kat_3 :
  hash_all hash_whirlpool 0 [] (hex "4142434445464748494A4B4C4D4E4F505152535455565758595A6162636465666768696A6B6C6D6E6F707172737475767778797A30313233343536373839") 64 = Ok (hex "DC37E008CF9EE69BF11F00ED9ABA26901DD7C28CDEC066CC6AF42E40F82F3A1E08EBA26629129D8FB7CB57211B9281A65517CC879D7B962142C65F5A7AF01467").
Proof. vm_compute. reflexivity. Qed.

(** /repo/test/hash/whirlpool.c *)
Example whirlpool_kat_4 :
  hash_all hash_whirlpool 0 [] (hex "3132333435363738393031323334353637383930313233343536373839303132333435363738393031323334353637383930313233343536373839303132333435363738393031323334353637383930") 64 = Ok (hex "466EF18BABB0154D25B9D38A6414F5C08784372BCCB204D6549C4AFADB6014294D5BD8DF2A6C44E538CD047B2681A51A2C60481E88C5A20B2C2A80CF3A9A083B").
Proof. vm_compute. reflexivity. Qed.

(** /repo/test/hash/keccak1600.c *)
Example keccak1600_kat_1 :
  hash_all hash_keccak1600 0 [] (hex "") 28 = Ok (hex "F71837502BA8E10837BDD8D365ADB85591895602FC552B48B7390ABD").
Proof. vm_compute. reflexivity. Qed.

(** /repo/test/hash/keccak1600.c *)
Example keccak1600_kat_2 :
  hash_all hash_keccak1600 0 [] (hex "54686520717569636B2062726F776E20666F78206A756D7073206F76657220746865206C617A7920646F67") 28 = Ok (hex "310AEE6B30C47350576AC2873FA89FD190CDC488442F3EF654CF23FE").
Proof. vm_compute. reflexivity. Qed.

(** /repo/test/hash/keccak1600.c *)
Example keccak1600_kat_3 :
  hash_all hash_keccak1600 0 [] (hex "") 32 = Ok (hex "C5D2460186F7233C927E7DB2DCC703C0E500B653CA82273B7BFAD8045D85A470").
Proof. vm_compute. reflexivity. Qed.

(** /repo/test/hash/keccak1600.c *)
Example keccak1600_kat_4 :
  hash_all hash_keccak1600 0 [] (hex "54686520717569636B2062726F776E20666F78206A756D7073206F76657220746865206C617A7920646F67") 32 = Ok (hex "4D741B6F1EB29CB2A9B9911C82F56FA8D73B04959D3D9D222895DF6C0B28AA15").
Proof. vm_compute. reflexivity. Qed.

(** /repo/test/hash/keccak1600.c *)
Example keccak1600_kat_5 :
  hash_all hash_keccak1600 0 [] (hex "") 48 = Ok (hex "2C23146A63A29ACF99E73B88F8C24EAA7DC60AA771780CCC006AFBFA8FE2479B2DD2B21362337441AC12B515911957FF").
Proof. vm_compute. reflexivity. Qed.

(** /repo/test/hash/keccak1600.c *)
Example keccak1600_kat_6 :
  hash_all hash_keccak1600 0 [] (hex "54686520717569636B2062726F776E20666F78206A756D7073206F76657220746865206C617A7920646F67") 48 = Ok (hex "283990FA9D5FB731D786C5BBEE94EA4DB4910F18C62C03D173FC0A5E494422E8A0B3DA7574DAE7FA0BAF005E504063B3").
Proof. vm_compute. reflexivity. Qed.

(** /repo/test/hash/keccak1600.c *)
Example keccak1600_kat_7 :
  hash_all hash_keccak1600 0 [] (hex "") 64 = Ok (hex "0EAB42DE4C3CEB9235FC91ACFFE746B29C29A8C366B7C60E4E67C466F36A4304C00FA9CAF9D87976BA469BCBE06713B435F091EF2769FB160CDAB33D3670680E").
Proof. vm_compute. reflexivity. Qed.

(** /repo/test/hash/keccak1600.c *)
Example keccak1600_kat_8 :
  hash_all hash_keccak1600 0 [] (hex "54686520717569636B2062726F776E20666F78206A756D7073206F76657220746865206C617A7920646F67") 64 = Ok (hex "D135BB84D0439DBAC432247EE573A23EA7D3C9DEB2A968EB31D47C4FB45F1EF4422D6C531B5B9BD6F449EBCC449EA94D0A8F05F62130FDA612DA53C79659F609").
Proof. vm_compute. reflexivity. Qed.

(** /repo/test/hash/keccak1600.c *)
Example keccak1600_kat_9 :
  hash_all hash_keccak1600 0 [] (hex "CC") 64 = Ok (hex "8630C13CBD066EA74BBE7FE468FEC1DEE10EDC1254FB4C1B7C5FD69B646E44160B8CE01D05A0908CA790DFB080F4B513BC3B6225ECE7A810371441A5AC666EB9").
Proof. vm_compute. reflexivity. Qed.

(** /repo/test/hash/sha3.c *)
Example sha3_kat_1 :
  hash_all hash_sha3 0 [] (hex "") 28 = Ok (hex "6B4E03423667DBB73B6E15454F0EB1ABD4597F9A1B078E3F5B5A6BC7").
Proof. vm_compute. reflexivity. Qed.

(** /repo/test/hash/sha3.c *)
Example sha3_kat_2 :
  hash_all hash_sha3 0 [] (hex "01") 28 = Ok (hex "488286D9D32716E5881EA1EE51F36D3660D70F0DB03B3F612CE9EDA4").
Proof. vm_compute. reflexivity. Qed.

(** /repo/test/hash/sha3.c *)
Example sha3_kat_3 :
  hash_all hash_sha3 0 [] (hex "") 32 = Ok (hex "A7FFC6F8BF1ED76651C14756A061D662F580FF4DE43B49FA82D80A4B80F8434A").
Proof. vm_compute. reflexivity. Qed.

(** /repo/test/hash/sha3.c *)
Example sha3_kat_4 :
  hash_all hash_sha3 0 [] (hex "E9") 32 = Ok (hex "F0D04DD1E6CFC29A4460D521796852F25D9EF8D28B44EE91FF5B759D72C1E6D6").
Proof. vm_compute. reflexivity. Qed.

(** /repo/test/hash/sha3.c *)
Example sha3_kat_5 :
  hash_all hash_sha3 0 [] (hex "") 48 = Ok (hex "0C63A75B845E4F7D01107D852E4C2485C51A50AAAA94FC61995E71BBEE983A2AC3713831264ADB47FB6BD1E058D5F004").
Proof. vm_compute. reflexivity. Qed.

(** /repo/test/hash/sha3.c *)
Example sha3_kat_6 :
  hash_all hash_sha3 0 [] (hex "80") 48 = Ok (hex "7541384852E10FF10D5FB6A7213A4A6C15CCC86D8BC1068AC04F69277142944F4EE50D91FDC56553DB06B2F5039C8AB7").
Proof. vm_compute. reflexivity. Qed.

(** /repo/test/hash/sha3.c *)
Example sha3_kat_7 :
  hash_all hash_sha3 0 [] (hex "") 64 = Ok (hex "A69F73CCA23A9AC5C8B567DC185A756E97C982164FE25859E0D1DCC1475C80A615B2123AF1F5F94C11E3E9402C3AC558F500199D95B6D3E301758586281DCD26").
Proof. vm_compute. reflexivity. Qed.

(** /repo/test/hash/sha3.c *)
Example sha3_kat_8 :
  hash_all hash_sha3 0 [] (hex "E5") 64 = Ok (hex "150240BAF95FB36F8CCB87A19A41767E7AED95125075A2B2DBBA6E565E1CE8575F2B042B62E29A04E9440314A821C6224182964D8B557B16A492B3806F4C39C1").
Proof. vm_compute. reflexivity. Qed.
