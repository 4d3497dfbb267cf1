(** C31, C32: OMAC is CMAC and XCBC is RFC 3566 (Spec/CbcMac.v). *)
From Coq Require Import String.
From Coq Require Import NArith Arith List Bool.
From Verif Require Import Lib.Res Lib.Bytes Lib.Hex Spec.Words Spec.Block Spec.Cipher Spec.Arx Spec.Aes Spec.Mac Spec.CbcMac
  Model.BlockApi Model.MacApi Model.Omac Model.Ciphers Model.Threefish Model.Sparx Model.Gost Model.Simon Proof.CbcMacP Proof.CbcMacPubP Proof.CiphersP Proof.RijndaelKeyP.
Import ListNotations.
Local Open Scope string_scope.
Local Open Scope N_scope.
Local Notation length := List.length.

(** C31.  Over every cipher object that works, made with any round count: the tags are those of CMAC over the function of the object. *)
Theorem C31_omac c r key n s R : (0 < length key)%nat -> bc_create c r key = Ok s -> works c s -> cmac_poly (bc_bs c) = Some R -> (n <= bc_bs c)%nat ->
  mac_computes (omac_desc c) r key n (at_most (bc_bs c)) (fun _ => True) (cmac (bc_bs c) (fn (bc_enc c s)) R).
Proof. exact (omac_works c r key n s R). Qed.
(** ... and after a recreate of the MAC, as long as the recreate of the cipher works *)
Theorem C31_recreate c m r key n s R : (0 < length key)%nat -> bc_recreate c (om_block c m) r key = Ok s -> works c s -> cmac_poly (bc_bs c) = Some R ->
  mac_gives (omac_desc c) (mac_recreate (omac_desc c) m r key n) (at_most (bc_bs c)) (fun _ => True) (cmac (bc_bs c) (fn (bc_enc c s)) R).
Proof. exact (omac_rekeyed c m r key n s R). Qed.
(** With the default rounds, every cipher of [sound_ciphers] has such objects and a block size with a polynomial. *)
Theorem C31_ciphers : Forall (fun c => forall key n, key_ok (bc_maxkey c) key -> (n <= bc_bs c)%nat -> exists s R,
  bc_create c 0 key = Ok s /\ works c s /\ cmac_poly (bc_bs c) = Some R /\
  mac_computes (omac_desc c) 0 key n (at_most (bc_bs c)) (fun _ => True) (cmac (bc_bs c) (fn (bc_enc c s)) R)) sound_ciphers.
Proof. exact omac_sound. Qed.
(** AES-CMAC, and CMAC over the other ciphers that are proved to be the published ones *)
Theorem C31_aes key n : bytes_ok key -> length key = 16%nat \/ length key = 24%nat \/ length key = 32%nat -> (n <= 16)%nat ->
  mac_computes (omac_desc rijndael128_desc) 0 key n (at_most 16) (fun _ => True) (cmac 16 (aes_enc key) 0x87).
Proof.
  exact (fun Hb Hl Hn => omac_published rijndael128_desc aes_key aes_enc 0x87 key n rijndael128_default aes_cipher eq_refl
    (conj Hb (match Hl with or_introl E => eq_ind_r (fun l => 0 < l <= 32)%nat (conj (proj1 (Nat.ltb_lt 0 16) eq_refl) (proj1 (Nat.leb_le 16 32) eq_refl)) E
              | or_intror (or_introl E) => eq_ind_r (fun l => 0 < l <= 32)%nat (conj (proj1 (Nat.ltb_lt 0 24) eq_refl) (proj1 (Nat.leb_le 24 32) eq_refl)) E
              | or_intror (or_intror E) => eq_ind_r (fun l => 0 < l <= 32)%nat (conj (proj1 (Nat.ltb_lt 0 32) eq_refl) (proj1 (Nat.leb_le 32 32) eq_refl)) E end)) Hl Hn).
Qed.
Theorem C31_published c ok E R key n : works_default c -> is_cipher c ok E -> cmac_poly (bc_bs c) = Some R -> key_ok (bc_maxkey c) key -> ok key -> (n <= bc_bs c)%nat ->
  mac_computes (omac_desc c) 0 key n (at_most (bc_bs c)) (fun _ => True) (cmac (bc_bs c) (E key) R).
Proof. exact (omac_published c ok E R key n). Qed.
Print Assumptions C31_omac. Print Assumptions C31_recreate. Print Assumptions C31_ciphers. Print Assumptions C31_aes. Print Assumptions C31_published.
(** RFC 4493, examples 1 to 3 *)
Example C31_rfc4493 : let K := hex "2b7e151628aed2a6abf7158809cf4f3c" in
  cmac 16 (aes_enc K) 0x87 [] = hex "bb1d6929e95937287fa37d129b756746" /\
  cmac 16 (aes_enc K) 0x87 (hex "6bc1bee22e409f96e93d7e117393172a") = hex "070a16b46b4d4144f79bdd9dd04a287c" /\
  cmac 16 (aes_enc K) 0x87 (hex "6bc1bee22e409f96e93d7e117393172aae2d8a571e03ac9c9eb76fac45af8e5130c81c46a35ce411") = hex "dfa66747de9ae63030ca32611497c827".
Proof. vm_compute. repeat split. Qed.
Example C31_case : exists t, tag_of (omac_desc tea_desc) (mac_create (omac_desc tea_desc) 0 [1; 2; 3] 8) [[1; 2]; []; [3; 4; 5; 6; 7; 8; 9]] [3; 5]%nat = Ok t /\ length t = 8%nat.
Proof. eexists. split; [vm_compute; reflexivity|reflexivity]. Qed.

(** The table of omac.c has a row for every block size below 256, but for a user's cipher with other block sizes: the rows for 33 and 207 bytes
    are not irreducible, and for 253 bytes the row is added at the wrong place. *)
Fixpoint poly_mul (a : positive) (b : N) : N :=
  match a with xH => b | xO a => 2 * poly_mul a b | xI a => N.lxor b (2 * poly_mul a b) end.
Theorem C31_row33_refuted : exists b, 1 < b /\ N.lxor (2 ^ 264) (be_val (nth 33 omac_poly [])) = poly_mul 3 b.
Proof. exists 0xfffffffffffffffffffffffffffffffffffffffffffffffffffffffffffffff8c3. split; vm_compute; reflexivity. Qed.
Theorem C31_row207_refuted : exists b, 1 < b /\ N.lxor (2 ^ 1656) (be_val (nth 207 omac_poly [])) = poly_mul 7 b.
Proof.
  exists 0x6db6db6db6db6db6db6db6db6db6db6db6db6db6db6db6db6db6db6db6db6db6db6db6db6db6db6db6db6db6db6db6db6db6db6db6db6db6db6db6db6db6db6db6db6db6db6db6db6db6db6db6db6db6db6db6db6db6db6db6db6db6db6db6db6db6db6db6db6db6db6db6db6db6db6db6db6db6db6db6db6db6db6db6db6db6db6db6db6db6db6db6db6db6db6db6db6db6db6db6db6db6db6db6db6db6db6db6db6db6db6db6db6db6db6db6db6db6db6db6db6db6db6db6db6db6db6db6db6db6db6db6db6db6db6db6db6eeddb.
  split; vm_compute; reflexivity.
Qed.
Theorem C31_place_refuted : exists l, blk 253 l /\ omac_double 253 l <> gf_double 253 (be_val (nth 253 omac_poly [])) l.
Proof.
  exists (128 :: repeat 0 252). split; [split; [reflexivity|constructor; [reflexivity|apply (blk_fill 252 0); reflexivity]]|].
  intros H. apply (f_equal be_val) in H. revert H. apply N.eqb_neq. vm_compute. reflexivity.
Qed.
Print Assumptions C31_row33_refuted. Print Assumptions C31_row207_refuted. Print Assumptions C31_place_refuted.

(** C32.  From an object [s] for the key and [s1] for K1 = E_K(01..): *)
Theorem C32_xcbc c r key n s s1 : (0 < length key)%nat -> (bc_bs c < 256)%nat -> bc_create c r key = Ok s -> works c s ->
  bc_recreate c s r (fn (bc_enc c s) (repeat 1 (bc_bs c))) = Ok s1 -> works c s1 -> (n <= bc_bs c)%nat ->
  mac_computes (xcbc_desc c) r key n (at_most (bc_bs c)) (fun _ => True)
    (cbc_mac (bc_bs c) (fn (bc_enc c s1)) (fn (bc_enc c s) (repeat 2 (bc_bs c))) (fn (bc_enc c s) (repeat 3 (bc_bs c)))).
Proof. exact (fun Hk Hb Es W Er W1 Hn => xcbc_gives c r key n s s1 _ _ Hk (conj (proj1 W) Hb) Es (works_fn c s W) Er (works_fn c s1 W1) Hn). Qed.
Theorem C32_recreate c m r key n s s1 : (0 < length key)%nat -> (bc_bs c < 256)%nat -> bc_recreate c (xc_block c m) r key = Ok s -> works c s ->
  bc_recreate c s r (fn (bc_enc c s) (repeat 1 (bc_bs c))) = Ok s1 -> works c s1 ->
  mac_gives (xcbc_desc c) (mac_recreate (xcbc_desc c) m r key n) (at_most (bc_bs c)) (fun _ => True)
    (cbc_mac (bc_bs c) (fn (bc_enc c s1)) (fn (bc_enc c s) (repeat 2 (bc_bs c))) (fn (bc_enc c s) (repeat 3 (bc_bs c)))).
Proof. exact (fun Hk Hb Es W Er W1 => xcbc_regives c m r key n s s1 _ _ Hk (conj (proj1 W) Hb) Es (works_fn c s W) Er (works_fn c s1 W1)). Qed.
(** Ciphers whose default round count does not depend on the key: every accepted key. *)
Theorem C32_every_key : Forall (fun c => forall key n, key_ok (bc_maxkey c) key -> (n <= bc_bs c)%nat -> exists s s1,
  bc_create c 0 key = Ok s /\ works c s /\ bc_create c 0 (fn (bc_enc c s) (repeat 1 (bc_bs c))) = Ok s1 /\ works c s1 /\
  mac_computes (xcbc_desc c) 0 key n (at_most (bc_bs c)) (fun _ => True)
    (cbc_mac (bc_bs c) (fn (bc_enc c s1)) (fn (bc_enc c s) (repeat 2 (bc_bs c))) (fn (bc_enc c s) (repeat 3 (bc_bs c)))))
  [tea_desc; noekeon_desc; rc2_desc; threeway_desc; crax_desc; threefish_desc threefish256; threefish_desc threefish512; threefish_desc threefish1024;
   xtea_desc; rc5_desc; rc6_desc; idea_desc; trax_desc trax_m; trax_desc trax_l; rectangle_desc;
   gost_desc gost_cbr; gost_desc gost_r3412; simon_desc simon32;
   seed_desc; sm4_desc; skipjack_desc; cast5_desc; des_desc; blowfish_desc; camellia_desc; twofish_desc; serpent_desc; shacal2_desc; khazad_desc].
Proof. exact xcbc_any. Qed.
(** The others: keys of the length of a block. *)
Theorem C32_block_key : Forall (fun c => forall key, length key = bc_bs c -> forall n, key_ok (bc_maxkey c) key -> (n <= bc_bs c)%nat -> exists s s1,
  bc_create c 0 key = Ok s /\ works c s /\ bc_create c 0 (fn (bc_enc c s) (repeat 1 (bc_bs c))) = Ok s1 /\ works c s1 /\
  mac_computes (xcbc_desc c) 0 key n (at_most (bc_bs c)) (fun _ => True)
    (cbc_mac (bc_bs c) (fn (bc_enc c s1)) (fn (bc_enc c s) (repeat 2 (bc_bs c))) (fn (bc_enc c s) (repeat 3 (bc_bs c)))))
  [lea_desc; simon_desc simon64; simon_desc simon128; rijndael128_desc; anubis_desc; aria_desc].
Proof. exact xcbc_block_keys. Qed.
Theorem C32_aes key n : blk 16 key -> (n <= 16)%nat ->
  mac_computes (xcbc_desc rijndael128_desc) 0 key n (at_most 16) (fun _ => True) (xcbc_mac 16 aes_enc key).
Proof. exact (xcbc_aes key n). Qed.
Print Assumptions C32_xcbc. Print Assumptions C32_recreate. Print Assumptions C32_every_key. Print Assumptions C32_block_key. Print Assumptions C32_aes.
(** RFC 3566, test cases 1, 2 and 3 *)
Example C32_rfc3566 : let K := hex "000102030405060708090a0b0c0d0e0f" in
  xcbc_mac 16 aes_enc K [] = hex "75f0251d528ac01c4573dfd584d79f29" /\
  xcbc_mac 16 aes_enc K (hex "000102") = hex "5b376580ae2f19afe7219ceef172756f" /\
  xcbc_mac 16 aes_enc K (hex "000102030405060708090a0b0c0d0e0f") = hex "d2a246fa349b68a79998a4394ff7a263".
Proof. vm_compute. repeat split. Qed.
Example C32_case : exists t, tag_of (xcbc_desc tea_desc) (mac_create (xcbc_desc tea_desc) 0 [1; 2; 3] 8) [[1; 2]; []; [3; 4; 5; 6; 7; 8; 9]] [3; 5]%nat = Ok t /\ length t = 8%nat.
Proof. eexists. split; [vm_compute; reflexivity|reflexivity]. Qed.
(** AES-192, AES-256 and LEA with longer keys: create frees the cipher object and goes on using it. *)
Theorem C32_aes_refuted key n : bytes_ok key -> (16 < length key <= 32)%nat -> mac_create (xcbc_desc rijndael128_desc) 0 key n = Err UseAfterFree.
Proof. exact (xcbc_aes_uaf key n). Qed.
Theorem C32_lea_refuted key n : bytes_ok key -> (16 < length key <= 32)%nat -> mac_create (xcbc_desc lea_desc) 0 key n = Err UseAfterFree.
Proof. exact (xcbc_lea_uaf key n). Qed.
Print Assumptions C32_aes_refuted. Print Assumptions C32_lea_refuted.
