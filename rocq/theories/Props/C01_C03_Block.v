(** C01, C02, C03: block ciphers are permutations of blocks. *)
From Coq Require Import NArith Arith List Bool.
From Verif Require Import Lib.Res Lib.Bytes Spec.Block Spec.Cipher Model.BlockApi Model.Ciphers
  Model.Tea Model.Xtea Model.Speck Model.Simon Model.Threefish Model.Lea Model.Sparx Model.Noekeon Model.Gost
  Model.Threeway Model.Rc5 Model.Rc6 Model.Rc2 Model.Rectangle Model.Idea Model.Rijndael Model.Aria Model.Twofish Model.Khazad Model.Anubis Model.Sm4 Model.Cast5 Model.Camellia
  Model.Blowfish Model.Serpent Model.Shacal2 Model.Safer Model.Saferpp Model.Skipjack
  Proof.CiphersP Proof.SpeckP Proof.SimonP Proof.ThreefishP Proof.SparxP Proof.XteaP Proof.LeaP Proof.NoekeonP
  Proof.ThreewayP Proof.GostP Proof.RijndaelKeyP Proof.AriaP Proof.TwofishP Proof.KhazadP Proof.AnubisP Proof.Sm4P Proof.Cast5P
  Proof.CamelliaP Proof.BlowfishP Proof.SerpentP Proof.Shacal2P Proof.SaferP Proof.SaferppP.
Import ListNotations.
Local Open Scope N_scope.

(** C01: default rounds, every key of 1 .. maxkey bytes *)
Theorem C01_block_roundtrip : Forall works_default sound_ciphers.
Proof. exact sound_default. Qed.
Print Assumptions C01_block_roundtrip.
Example C01_key : key_ok (bc_maxkey tea_desc) [1; 2; 3]. Proof. split; [repeat constructor|split; cbn; repeat constructor]. Qed.

(** C01 for Speck holds for keys of more than one word ... *)
Theorem C01_speck32 key : key_ok 8 key -> (2 < length key)%nat ->
  exists s, bc_create (speck_desc speck32) 0 key = Ok s /\ works (speck_desc speck32) s.
Proof. exact (speck32_default key). Qed.
Print Assumptions C01_speck32.
Theorem C01_speck64 key : key_ok 16 key -> (4 < length key)%nat ->
  exists s, bc_create (speck_desc speck64) 0 key = Ok s /\ works (speck_desc speck64) s.
Proof. exact (speck64_default key). Qed.
Print Assumptions C01_speck64.
Theorem C01_speck128 key : key_ok 32 key -> (8 < length key)%nat ->
  exists s, bc_create (speck_desc speck128) 0 key = Ok s /\ works (speck_desc speck128) s.
Proof. exact (speck128_default key). Qed.
Print Assumptions C01_speck128.
(** Rijndael with 256 bit blocks: keys of 9 or more bytes work, the key schedule of shorter keys reads past the round constants *)
Theorem C01_rijndael256 key : key_ok 32 key -> (8 < length key)%nat -> exists s, bc_create rijndael256_desc 0 key = Ok s /\ works rijndael256_desc s.
Proof. exact (rijndael256_default key). Qed.
Print Assumptions C01_rijndael256.
Theorem C01_rijndael256_short_refuted key : key_ok 32 key -> (length key <= 8)%nat -> bc_create rijndael256_desc 0 key = Err OobRead.
Proof. exact (rijndael256_short key). Qed.
Print Assumptions C01_rijndael256_short_refuted.
Example C01_speck_key : key_ok 8 [1; 2; 3] /\ (2 < length [1%N; 2%N; 3%N])%nat.
Proof. split; [split; [repeat constructor|split; cbn; repeat constructor]|cbn; repeat constructor]. Qed.
(** ... and every shorter key makes create divide by zero. *)
Theorem C01_speck32_refuted key : key_ok 8 key -> (length key <= 2)%nat -> bc_create (speck_desc speck32) 0 key = Err DivZero.
Proof. exact (speck32_short key). Qed.
Print Assumptions C01_speck32_refuted.
Theorem C01_speck64_refuted key : key_ok 16 key -> (length key <= 4)%nat -> bc_create (speck_desc speck64) 0 key = Err DivZero.
Proof. exact (speck64_short key). Qed.
Print Assumptions C01_speck64_refuted.
Theorem C01_speck128_refuted key : key_ok 32 key -> (length key <= 8)%nat -> bc_create (speck_desc speck128) 0 key = Err DivZero.
Proof. exact (speck128_short key). Qed.
Print Assumptions C01_speck128_refuted.

(** SAFER and SAFER++ work with keys of the two natural lengths and read past the end of all others *)
Theorem C01_safer sk key : key_ok 16 key -> length key = 8%nat \/ length key = 16%nat ->
  exists s, bc_create (safer_desc sk) 0 key = Ok s /\ works (safer_desc sk) s.
Proof. exact (safer_default sk key). Qed.
Print Assumptions C01_safer.
Theorem C01_safer_refuted sk key : key_ok 16 key -> length key <> 8%nat -> length key <> 16%nat -> bc_create (safer_desc sk) 0 key = Err OobRead.
Proof. exact (fun H H8 H16 => safer_short sk 0 key H H8 H16 eq_refl). Qed.
Print Assumptions C01_safer_refuted.
Theorem C01_saferpp key : key_ok 32 key -> length key = 16%nat \/ length key = 32%nat ->
  exists s, bc_create saferpp_desc 0 key = Ok s /\ works saferpp_desc s.
Proof. exact (saferpp_default key). Qed.
Print Assumptions C01_saferpp.
Theorem C01_saferpp_refuted key : key_ok 32 key -> length key <> 16%nat -> length key <> 32%nat -> bc_create saferpp_desc 0 key = Err OobRead.
Proof. exact (fun H H8 H16 => saferpp_short 0 key H H8 H16 eq_refl). Qed.
Print Assumptions C01_saferpp_refuted.

(** C02: for a fixed key encryption is one-to-one and onto, and encrypt undoes decrypt *)
Theorem C02_block_bijective : Forall (fun c => forall key, key_ok (bc_maxkey c) key -> exists s, bc_create c 0 key = Ok s /\
  bijective (bc_bs c) (bc_enc c s) /\ undoes (bc_bs c) (bc_dec c s) (bc_enc c s)) sound_ciphers.
Proof. exact sound_bijective. Qed.
Print Assumptions C02_block_bijective.

(** C03: usable round counts *)
Theorem C03_tea : works_when (fun r _ => r < 2 ^ 32) tea_desc. Proof. exact tea_works. Qed.
Print Assumptions C03_tea.
Theorem C03_xtea : works_when (fun r _ => N.even r = true /\ r < 2 ^ 30) xtea_desc. Proof. exact xtea_works. Qed.
Print Assumptions C03_xtea.
Theorem C03_rc5 : works_when (fun r _ => r < 2 ^ 29 - 1) rc5_desc. Proof. exact rc5_works. Qed.
Print Assumptions C03_rc5.
Theorem C03_rc6 : works_when (fun r _ => r < 2 ^ 29 - 2) rc6_desc. Proof. exact rc6_works. Qed.
Print Assumptions C03_rc6.
Theorem C03_lea : works_when (fun r _ => r mod 4 = 0 /\ r * 24 < 2 ^ 32) lea_desc. Proof. exact lea_works. Qed.
Print Assumptions C03_lea.
Theorem C03_crax : works_when (fun r _ => r < 2 ^ 32) crax_desc. Proof. exact crax_works. Qed.
Print Assumptions C03_crax.
Theorem C03_noekeon : works_when (fun r _ => r < 34) noekeon_desc. Proof. exact noekeon_works. Qed.
Print Assumptions C03_noekeon.
Theorem C03_rectangle : works_when (fun r _ => r <= 25) rectangle_desc. Proof. exact rectangle_works. Qed.
Print Assumptions C03_rectangle.
Theorem C03_rc2 : works_when (fun _ _ => True) rc2_desc. Proof. exact rc2_works. Qed.
Print Assumptions C03_rc2.
Theorem C03_idea : works_when (fun r _ => 24 * r + 16 < 2 ^ 32) idea_desc. Proof. exact idea_works. Qed.
Print Assumptions C03_idea.
Theorem C03_rijndael128 : works_when (fun r key => (rj_rounds 10 r key + 1) * 2 ^ 5 < 2 ^ 32 /\
  (4 * (N.to_nat (rj_rounds 10 r key) + 1) <= 53 * rj_n key)%nat) rijndael128_desc. Proof. exact rijndael128_works. Qed.
Print Assumptions C03_rijndael128.
Theorem C03_rijndael256 : works_when (fun r key => (rj_rounds 14 r key + 1) * 2 ^ 6 < 2 ^ 32 /\
  (8 * (N.to_nat (rj_rounds 14 r key) + 1) <= 53 * rj_n key)%nat) rijndael256_desc. Proof. exact rijndael256_works. Qed.
Print Assumptions C03_rijndael256.
Theorem C03_gost sb : works_when (fun r key => r < 2 ^ 30 /\ N.even r = true /\
  2 * N.of_nat (gost_kl key) <= gost_rounds r) (gost_desc sb). Proof. exact (gost_works sb). Qed.
Print Assumptions C03_gost.
Theorem C03_trax_m : works_when (fun r _ => (trax_r trax_m r + 1) * 16 < 2 ^ 32) (trax_desc trax_m).
Proof. exact (trax_works _ trax_m_good). Qed.
Print Assumptions C03_trax_m.
Theorem C03_trax_l : works_when (fun r _ => (trax_r trax_l r + 1) * 32 < 2 ^ 32) (trax_desc trax_l).
Proof. exact (trax_works _ trax_l_good). Qed.
Print Assumptions C03_trax_l.
Theorem C03_threefish256 : works_when (fun r _ => tf_rounds_ok threefish256 r) (threefish_desc threefish256).
Proof. exact (threefish_works _ threefish256_good (Nat.lt_0_succ _)). Qed.
Print Assumptions C03_threefish256.
Theorem C03_threefish512 : works_when (fun r _ => tf_rounds_ok threefish512 r) (threefish_desc threefish512).
Proof. exact (threefish_works _ threefish512_good (Nat.lt_0_succ _)). Qed.
Print Assumptions C03_threefish512.
Theorem C03_threefish1024 : works_when (fun r _ => tf_rounds_ok threefish1024 r) (threefish_desc threefish1024).
Proof. exact (threefish_works _ threefish1024_good (Nat.lt_0_succ _)). Qed.
Print Assumptions C03_threefish1024.
Theorem C03_simon32 : works_when (fun r key => N.of_nat (simon_m simon32 key) <= simon_r simon32 r key /\
  simon_r simon32 r key * 2 < 2 ^ 32) (simon_desc simon32). Proof. exact (simon_works _ simon32_good). Qed.
Print Assumptions C03_simon32.
Theorem C03_simon64 : works_when (fun r key => N.of_nat (simon_m simon64 key) <= simon_r simon64 r key /\
  simon_r simon64 r key * 4 < 2 ^ 32) (simon_desc simon64). Proof. exact (simon_works _ simon64_good). Qed.
Print Assumptions C03_simon64.
Theorem C03_simon128 : works_when (fun r key => N.of_nat (simon_m simon128 key) <= simon_r simon128 r key /\
  simon_r simon128 r key * 8 < 2 ^ 32) (simon_desc simon128). Proof. exact (simon_works _ simon128_good). Qed.
Print Assumptions C03_simon128.
Theorem C03_speck32 : works_when (fun r key => (2 < length key)%nat /\ speck_r speck32 r key <> 0 /\
  speck_r speck32 r key * 2 < 2 ^ 32) (speck_desc speck32). Proof. exact (speck_works _ speck32_good). Qed.
Print Assumptions C03_speck32.
Theorem C03_speck64 : works_when (fun r key => (4 < length key)%nat /\ speck_r speck64 r key <> 0 /\
  speck_r speck64 r key * 4 < 2 ^ 32) (speck_desc speck64). Proof. exact (speck_works _ speck64_good). Qed.
Print Assumptions C03_speck64.
Theorem C03_speck128 : works_when (fun r key => (8 < length key)%nat /\ speck_r speck128 r key <> 0 /\
  speck_r speck128 r key * 8 < 2 ^ 32) (speck_desc speck128). Proof. exact (speck_works _ speck128_good). Qed.
Print Assumptions C03_speck128.
Theorem C03_seed : works_when (fun r _ => r < 2 ^ 29) seed_desc. Proof. exact seed_works. Qed.
Print Assumptions C03_seed.
Theorem C03_sm4 : works_when (fun r _ => r mod 4 = 0 /\ r <= 32) sm4_desc. Proof. exact sm4_works. Qed.
Print Assumptions C03_sm4.
Theorem C03_skipjack : works_when (fun r _ => r = 0 \/ r = 32) skipjack_desc. Proof. exact skipjack_works. Qed.
Print Assumptions C03_skipjack.
Theorem C03_des : works_when (fun _ _ => True) des_desc. Proof. exact des_works. Qed.
Print Assumptions C03_des.
Theorem C03_blowfish : works_when (fun r _ => r <= 34) blowfish_desc. Proof. exact blowfish_works. Qed.
Print Assumptions C03_blowfish.
Theorem C03_twofish : works_when (fun r _ => N.even r = true /\ r < 2 ^ 29 - 4) twofish_desc. Proof. exact twofish_works. Qed.
Print Assumptions C03_twofish.
Theorem C03_serpent : works_when (fun r _ => r mod 8 = 0 /\ r < 2 ^ 28) serpent_desc. Proof. exact serpent_works. Qed.
Print Assumptions C03_serpent.
Theorem C03_shacal2 : works_when (fun r _ => r = 0 \/ r mod 8 = 0 /\ 16 <= r < 128) shacal2_desc. Proof. exact shacal2_works. Qed.
Print Assumptions C03_shacal2.
Theorem C03_khazad : works_when (fun r _ => r <= 8) khazad_desc. Proof. exact khazad_works. Qed.
Print Assumptions C03_khazad.
Theorem C03_anubis : works_when (fun r _ => r <= 64) anubis_desc. Proof. exact anubis_works. Qed.
Print Assumptions C03_anubis.
Theorem C03_aria : works_when (fun r _ => N.even r = true /\ r < 2 ^ 27 - 1) aria_desc. Proof. exact aria_works. Qed.
Print Assumptions C03_aria.
Theorem C03_saferpp : works_when (fun r key => (length key = 16 \/ length key = 32)%nat /\ r < 2 ^ 27 - 1) saferpp_desc. Proof. exact saferpp_works. Qed.
Print Assumptions C03_saferpp.
Theorem C03_safer sk : works_when (fun r key => (length key = 8 \/ length key = 16)%nat /\ r < 2 ^ 28 - 1) (safer_desc sk). Proof. exact (safer_works sk). Qed.
Print Assumptions C03_safer.
Example C03_rounds_exist : 6 mod 4 <> 0 /\ 8 mod 4 = 0 /\ tf_rounds_ok threefish256 8 /\
  N.of_nat (simon_m simon64 [1]) <= simon_r simon64 7 [1].
Proof. repeat split; vm_compute; discriminate. Qed.

(** C03: round counts the library accepts and then fails on *)
Theorem C03_xtea_refuted r key : key_ok 16 key -> N.odd r = true -> r < 2 ^ 30 ->
  exists s, xtea_create r key = Ok s /\ forall ct, xtea_decrypt s ct = Err OobRead.
Proof. exact (xtea_odd_refuted r key). Qed.
Print Assumptions C03_xtea_refuted.
Theorem C03_lea_refuted r key : key_ok 32 key -> r mod 4 <> 0 -> r * 24 < 2 ^ 32 ->
  exists s, lea_create r key = Ok s /\ forall ct pt, lea_decrypt s ct <> Ok pt.
Proof. exact (lea_odd_refuted r key). Qed.
Print Assumptions C03_lea_refuted.
Theorem C03_noekeon_refuted r key pt : key_ok 16 key -> 34 <= r ->
  exists s, noek_create r key = Ok s /\ noek_encrypt s pt = Err OobRead.
Proof. exact (noek_rounds_refuted r key pt). Qed.
Print Assumptions C03_noekeon_refuted.
Theorem C03_threeway_refuted : exists s pt ct, tw_create 10 [1] = Ok s /\ tw_encrypt s pt = Ok ct /\
  length pt = 12%nat /\ bytes_ok pt /\ tw_decrypt s ct <> Ok pt.
Proof. exact tw_rounds_refuted. Qed.
Print Assumptions C03_threeway_refuted.
Theorem C03_threefish_refuted : exists s pt ct, tf_create threefish256 4 [1] = Ok s /\ blk 32 pt /\
  tf_encrypt threefish256 s pt = Ok ct /\ tf_decrypt threefish256 s ct <> Ok pt.
Proof. exact threefish_odd_refuted. Qed.
Print Assumptions C03_threefish_refuted.
Theorem C03_gost_odd_refuted : exists s, gost_create gost_cbr 31 [1] = Ok s /\ gost_encrypt s (repeat 0 8) = Err OobRead.
Proof. exact gost_odd_oob. Qed.
Print Assumptions C03_gost_odd_refuted.
Theorem C03_gost_few_refuted sb r key : key_ok 32 key -> r <> 0 -> r < 2 ^ 30 ->
  r < 2 * N.of_nat (gost_kl key) -> gost_create sb r key = Err OobWrite.
Proof. exact (gost_few_rounds sb r key). Qed.
Print Assumptions C03_gost_few_refuted.
Theorem C03_simon64_few_refuted r key : key_ok 16 key ->
  simon_r simon64 r key < N.of_nat (simon_m simon64 key) -> simon_r simon64 r key * 4 < 2 ^ 32 ->
  simon_create simon64 r key = Err OobWrite.
Proof. exact (simon_few_rounds simon64 simon64_good r key). Qed.
Print Assumptions C03_simon64_few_refuted.
Theorem C03_sm4_refuted r key : key_ok 16 key -> r < 2 ^ 30 -> r mod 4 <> 0 -> sm4_create r key = Err OobWrite.
Proof. exact (sm4_bad_rounds r key). Qed.
Print Assumptions C03_sm4_refuted.
Theorem C03_sm4_many_refuted m key : key_ok 16 key -> (8 < m)%nat -> N.of_nat (4 * m) < 2 ^ 30 ->
  sm4_create (N.of_nat (4 * m)) key = Err OobRead.
Proof. exact (sm4_many_rounds m key). Qed.
Print Assumptions C03_sm4_many_refuted.
Theorem C03_blowfish_refuted r key : key_ok 56 key -> 34 < r -> blowfish_create r key = Err OobRead.
Proof. exact (blowfish_many_rounds r key). Qed.
Print Assumptions C03_blowfish_refuted.
(** CAST-128 and Camellia refuse every round count but the default one *)
Theorem C03_cast5_only_default r key : key_ok 16 key -> r <> 0 -> cast5_create r key = Err AssertFail.
Proof. exact (cast5_assert r key). Qed.
Print Assumptions C03_cast5_only_default.
Theorem C03_camellia_only_default r key : key_ok 32 key -> r <> 0 -> camellia_create r key = Err AssertFail.
Proof. exact (camellia_assert r key). Qed.
Print Assumptions C03_camellia_only_default.
Theorem C03_serpent_refuted r key : key_ok 32 key -> r < 2 ^ 28 - 1 -> r mod 8 <> 0 -> serpent_create r key = Err OobWrite.
Proof. exact (serpent_bad_rounds r key). Qed.
Print Assumptions C03_serpent_refuted.
Theorem C03_shacal2_few_refuted r key : key_ok 64 key -> 0 < r < 16 -> shacal2_create r key = Err OobWrite.
Proof. exact (shacal2_few_rounds r key). Qed.
Print Assumptions C03_shacal2_few_refuted.
Theorem C03_shacal2_refuted r key pt : key_ok 64 key -> 16 <= r < 128 -> r mod 8 <> 0 ->
  exists s, shacal2_create r key = Ok s /\ shacal2_encrypt s pt = Err OobRead /\ shacal2_decrypt s pt = Err OobRead.
Proof. exact (shacal2_bad_rounds r key pt). Qed.
Print Assumptions C03_shacal2_refuted.
Theorem C03_khazad_refuted r key : key_ok 16 key -> 8 < r < 2 ^ 28 - 1 -> khazad_create r key = Err OobRead.
Proof. exact (khazad_many_rounds r key). Qed.
Print Assumptions C03_khazad_refuted.
Theorem C03_anubis_refuted r key : key_ok 40 key -> 64 < r < 2 ^ 27 - 1 -> anubis_create r key = Err OobRead.
Proof. exact (anubis_many_rounds r key). Qed.
Print Assumptions C03_anubis_refuted.
(** with an odd number of rounds decryption does not undo encryption *)
Theorem C03_twofish_refuted : exists s pt ct, bc_create twofish_desc 3 (repeat 0 16) = Ok s /\ blk 16 pt /\
  twofish_encrypt s pt = Ok ct /\ twofish_decrypt s ct <> Ok pt.
Proof. exact twofish_odd_refuted. Qed.
Print Assumptions C03_twofish_refuted.
Theorem C03_aria_refuted : exists s pt ct, bc_create aria_desc 13 (repeat 0 16) = Ok s /\ blk 16 pt /\
  aria_encrypt s pt = Ok ct /\ aria_decrypt s ct <> Ok pt.
Proof. exact aria_odd_refuted. Qed.
Print Assumptions C03_aria_refuted.
