(** C48: ciphers of the library compute the published algorithms of Spec/Arx.v. *)
From Coq Require Import String.
From Coq Require Import NArith Arith List Bool.
From Verif Require Import Lib.Res Lib.Bytes Lib.Hex Spec.Block Spec.Arx Model.BlockApi Model.Threefish Model.Gost Model.Speck Model.Simon Model.Ciphers
  Proof.ThreefishP Proof.ArxP Proof.SpeckPubP Proof.ThreefishPubP Proof.LeaPubP Proof.IdeaPubP.
Import ListNotations.
Local Open Scope string_scope.
Local Open Scope N_scope.

Theorem C48_tea : is_cipher tea_desc (up_to 16) (tea_cipher 32).
Proof. exact tea_published. Qed.
Print Assumptions C48_tea.
Example C48_tea_ex : tea_cipher 32 (repeat 0 16) (repeat 0 8) = [0x41; 0xEA; 0x3A; 0x0A; 0x94; 0xBA; 0xA9; 0x40].
Proof. vm_compute. reflexivity. Qed.

Theorem C48_xtea : is_cipher xtea_desc (sized [16%nat]) (xtea_cipher 32).
Proof. exact xtea_published. Qed.
Print Assumptions C48_xtea.
Example C48_xtea_ex : xtea_cipher 32 (repeat 0 16) (repeat 0 8) = [0xDE; 0xE9; 0xD4; 0xD8; 0xF7; 0x13; 0x1E; 0xD9].
Proof. vm_compute. reflexivity. Qed.

(** RC5 and RC6 mix the key in 3 t steps, where t is the size of the table.  The published schedule takes 3 max(t, c) for a key of c words, so
    longer keys give another cipher. *)
Theorem C48_rc5 : is_cipher rc5_desc (up_to 104) (rc5_cipher 12).
Proof. exact rc5_published. Qed.
Print Assumptions C48_rc5.
Theorem C48_rc5_long_refuted : ~ is_cipher rc5_desc (up_to 105) (rc5_cipher 12).
Proof. exact rc5_long_refuted. Qed.
Print Assumptions C48_rc5_long_refuted.
Example C48_rc5_ex : rc5_cipher 12 (repeat 0 16) (repeat 0 8) = [0x21; 0xA5; 0xDB; 0xEE; 0x15; 0x4B; 0x8F; 0x6D].
Proof. vm_compute. reflexivity. Qed.
Theorem C48_rc6 : is_cipher rc6_desc (up_to 176) (rc6_cipher 20).
Proof. exact rc6_published. Qed.
Print Assumptions C48_rc6.
Theorem C48_rc6_long_refuted : ~ is_cipher rc6_desc (up_to 177) (rc6_cipher 20).
Proof. exact rc6_long_refuted. Qed.
Print Assumptions C48_rc6_long_refuted.

Theorem C48_speck32 : is_cipher (speck_desc speck32) (sized [8%nat]) (speck_cipher 16 2 7 2 22).
Proof. exact speck32_published. Qed.
Print Assumptions C48_speck32.
Theorem C48_speck64 : is_cipher (speck_desc speck64) (sized [12; 16]%nat) (fun key => speck_cipher 32 4 8 3 (List.length key / 4 + 23) key).
Proof. exact speck64_published. Qed.
Print Assumptions C48_speck64.
Theorem C48_speck128 : is_cipher (speck_desc speck128) (sized [16; 24; 32]%nat) (fun key => speck_cipher 64 8 8 3 (List.length key / 8 + 30) key).
Proof. exact speck128_published. Qed.
Print Assumptions C48_speck128.
(** Speck32/64 of the paper: key 1918 1110 0908 0100, plaintext 6574 694c *)
Example C48_speck_ex : speck_cipher 16 2 7 2 22 [0; 1; 8; 9; 0x10; 0x11; 0x18; 0x19] [0x4C; 0x69; 0x74; 0x65] = [0xF2; 0x42; 0x68; 0xA8].
Proof. vm_compute. reflexivity. Qed.

Theorem C48_simon32 : is_cipher (simon_desc simon32) (sized [8%nat]) (simon_cipher 16 2 0 32).
Proof. exact simon32_published. Qed.
Print Assumptions C48_simon32.
Theorem C48_simon64 : is_cipher (simon_desc simon64) (sized [12; 16]%nat) simon64_cipher.
Proof. exact simon64_published. Qed.
Print Assumptions C48_simon64.
Theorem C48_simon128 : is_cipher (simon_desc simon128) (sized [16; 24; 32]%nat) simon128_cipher.
Proof. exact simon128_published. Qed.
Print Assumptions C48_simon128.
(** Simon32/64 of the paper: key 1918 1110 0908 0100, plaintext 6565 6877 *)
Example C48_simon_ex : simon_cipher 16 2 0 32 [0; 1; 8; 9; 0x10; 0x11; 0x18; 0x19] [0x77; 0x68; 0x65; 0x65] = [0xBB; 0xE9; 0x9B; 0xC6].
Proof. vm_compute. reflexivity. Qed.

Theorem C48_threefish256 : is_tweak_cipher threefish256 threefish256_cipher.
Proof. exact threefish256_published. Qed.
Print Assumptions C48_threefish256.
Theorem C48_threefish512 : is_tweak_cipher threefish512 threefish512_cipher.
Proof. exact threefish512_published. Qed.
Print Assumptions C48_threefish512.
Theorem C48_threefish1024 : is_tweak_cipher threefish1024 threefish1024_cipher.
Proof. exact threefish1024_published. Qed.
Print Assumptions C48_threefish1024.
(** Threefish-256 of the reference implementation, with zero key, tweak and plaintext *)
Example C48_threefish_ex : threefish256_cipher (repeat 0 32) (repeat 0 16) (repeat 0 32) = hex "84da2a1f8beaee947066ae3e3103f1ad536db1f4a1192495116b9f3ce6133fd8".
Proof. vm_compute. reflexivity. Qed.

Theorem C48_lea : is_cipher lea_desc (sized [16; 24; 32]%nat) lea_cipher.
Proof. exact lea_published. Qed.
Print Assumptions C48_lea.
(** LEA-128 of the standard *)
Example C48_lea_ex : lea_cipher (hex "0f1e2d3c4b5a69788796a5b4c3d2e1f0") (hex "101112131415161718191a1b1c1d1e1f") = hex "9fc84e3528c6c6185532c7a704648bfd".
Proof. vm_compute. reflexivity. Qed.

(** GOST with any S-boxes of nibbles, and with the two sets of the library *)
Theorem C48_gost sb : nibbles sb -> is_cipher (gost_desc sb) (sized [32%nat]) (gost_cipher sb).
Proof. exact (gost_published sb). Qed.
Print Assumptions C48_gost.
Example C48_gost_ex : nibbles gost_cbr /\ nibbles gost_r3412.
Proof. exact (conj gost_cbr_nibbles gost_r3412_nibbles). Qed.
(** RFC 8891, appendix A: key words and block are read there from the most significant byte *)
Example C48_gost_rfc : rev (gost_cipher gost_r3412 (hex "ccddeeff8899aabb4455667700112233f3f2f1f0f7f6f5f4fbfaf9f8fffefdfc") (rev (hex "fedcba9876543210"))) = hex "4ee901e5c2d8ca3d".
Proof. vm_compute. reflexivity. Qed.

Theorem C48_idea : is_cipher idea_desc (up_to 16) idea_cipher.
Proof. exact idea_published. Qed.
Print Assumptions C48_idea.
Example C48_idea_ex : idea_cipher [0; 1; 0; 2; 0; 3; 0; 4; 0; 5; 0; 6; 0; 7; 0; 8] [0; 0; 0; 1; 0; 2; 0; 3] = [0x11; 0xFB; 0xED; 0x2B; 0x01; 0x98; 0x6D; 0xE5].
Proof. vm_compute. reflexivity. Qed.
