(** C05, C06, C07: re-keying, short keys, tweaks. *)
From Coq Require Import NArith Arith List Bool.
From Verif Require Import Lib.Res Lib.Bytes Spec.Block Spec.Cipher Model.BlockApi Model.Ciphers
  Model.Tea Model.Xtea Model.Speck Model.Simon Model.Threefish Model.Lea Model.Sparx Model.Gost
  Proof.RekeyP Proof.ThreefishP Proof.SparxP Proof.SaferP Proof.SaferppP.
Import ListNotations.
Local Open Scope N_scope.

(** C05: ciphers whose recreate is create, whatever the old object was *)
Theorem C05_rekey_any : Forall rekey_any
  [tea_desc; noekeon_desc; rc2_desc; threeway_desc; crax_desc;
   threefish_desc threefish256; threefish_desc threefish512; threefish_desc threefish1024;
   skipjack_desc; cast5_desc; des_desc; camellia_desc].
Proof. exact rekey_any_list. Qed.
Print Assumptions C05_rekey_any.
(** the others: if the round count argument and the key length do not change *)
Theorem C05_rekey_same : Forall rekey_same
  [xtea_desc; rc5_desc; rc6_desc; lea_desc; idea_desc; rectangle_desc; gost_desc gost_cbr; gost_desc gost_r3412;
   simon_desc simon32; simon_desc simon64; simon_desc simon128; speck_desc speck32; speck_desc speck64; speck_desc speck128;
   trax_desc trax_m; trax_desc trax_l; rijndael128_desc; rijndael256_desc;
   seed_desc; sm4_desc; blowfish_desc; twofish_desc; serpent_desc; shacal2_desc; khazad_desc;
   safer_desc false; safer_desc true; saferpp_desc; anubis_desc; aria_desc].
Proof. exact rekey_same_list. Qed.
Print Assumptions C05_rekey_same.
(** of these, the ones with a fixed default round count: a key of any length *)
Theorem C05_rekey_rounds : Forall rekey_rounds
  [xtea_desc; rc5_desc; rc6_desc; idea_desc; rectangle_desc; trax_desc trax_m; trax_desc trax_l;
   gost_desc gost_cbr; gost_desc gost_r3412; simon_desc simon32; speck_desc speck32;
   seed_desc; sm4_desc; blowfish_desc; twofish_desc; serpent_desc; shacal2_desc; khazad_desc].
Proof. exact rekey_rounds_list. Qed.
Print Assumptions C05_rekey_rounds.
Example C05_object : exists s, bc_create xtea_desc 0 [1; 2; 3] = Ok s. Proof. eexists. reflexivity. Qed.
(** when the number of rounds changes they use the object after freeing it *)
Theorem C05_rekey_refuted : Forall rekey_uaf
  [xtea_desc; rc5_desc; rc6_desc; lea_desc; idea_desc; rectangle_desc; gost_desc gost_cbr; gost_desc gost_r3412;
   simon_desc simon32; simon_desc simon64; simon_desc simon128; speck_desc speck32; speck_desc speck64; speck_desc speck128;
   trax_desc trax_m; trax_desc trax_l; rijndael128_desc; rijndael256_desc;
   seed_desc; sm4_desc; blowfish_desc; twofish_desc; serpent_desc; shacal2_desc; khazad_desc;
   safer_desc false; safer_desc true; saferpp_desc; anubis_desc; aria_desc].
Proof. exact rekey_uaf_list. Qed.
Print Assumptions C05_rekey_refuted.
(** for some a key of another length is enough *)
Theorem C05_rekey_default_refuted : Forall rekey_uaf_default
  [lea_desc; simon_desc simon64; simon_desc simon128; speck_desc speck64; speck_desc speck128; rijndael128_desc;
   safer_desc false; safer_desc true; saferpp_desc; anubis_desc; aria_desc].
Proof. exact rekey_uaf_default_list. Qed.
Print Assumptions C05_rekey_default_refuted.

(** C06: short keys *)
Theorem C06_one_size : Forall (zero_extends (fun _ _ => True))
  [tea_desc; noekeon_desc; threeway_desc; crax_desc; idea_desc; trax_desc trax_m; trax_desc trax_l;
   threefish_desc threefish256; threefish_desc threefish512; threefish_desc threefish1024;
   seed_desc; sm4_desc; skipjack_desc; shacal2_desc; khazad_desc].
Proof. exact zeros_list. Qed.
Print Assumptions C06_one_size.
Example C06_tea : bc_create tea_desc 0 [1; 2; 3; 0; 0; 0] = bc_create tea_desc 0 [1; 2; 3].
Proof. reflexivity. Qed.
Theorem C06_words4 : Forall (zero_extends (same_words 4))
  [xtea_desc; gost_desc gost_cbr; gost_desc gost_r3412; simon_desc simon64; speck_desc speck64; rijndael128_desc; rijndael256_desc;
   anubis_desc; aria_desc].
Proof. exact zeros_words4_list. Qed.
Print Assumptions C06_words4.
Theorem C06_words2 : Forall (zero_extends (same_words 2)) [simon_desc simon32; speck_desc speck32].
Proof. exact zeros_words2_list. Qed.
Print Assumptions C06_words2.
Theorem C06_words8 : Forall (zero_extends (same_words 8)) [simon_desc simon128; speck_desc speck128; twofish_desc].
Proof. exact zeros_words8_list. Qed.
Print Assumptions C06_words8.
Theorem C06_lea : zero_extends (fun a b => (b <= 16 \/ 16 < a /\ b <= 24 \/ 24 < a)%nat) lea_desc.
Proof. exact lea_zeros. Qed.
Print Assumptions C06_lea.
Theorem C06_rectangle : zero_extends (fun a b => (b <= 10 \/ 10 < a)%nat) rectangle_desc.
Proof. exact rectangle_zeros. Qed.
Print Assumptions C06_rectangle.
Theorem C06_cast5 : zero_extends (fun a b => (b <= 5 \/ 5 < a)%nat) cast5_desc.
Proof. exact cast5_zeros. Qed.
Print Assumptions C06_cast5.
Theorem C06_des : zero_extends (fun a b => (b <= 8 \/ 8 < a /\ b <= 16 \/ 16 < a)%nat) des_desc.
Proof. exact des_zeros. Qed.
Print Assumptions C06_des.
(** Camellia: keys of up to 8 bytes, of 17 to 24 and of 25 to 32 *)
Theorem C06_camellia : zero_extends (fun a b => (b <= 8 \/ 16 < a /\ b <= 24 \/ 24 < a)%nat) camellia_desc.
Proof. exact camellia_zeros. Qed.
Print Assumptions C06_camellia.
(** ... a key of nine bytes is not the sixteen byte key that ends in zeros *)
Theorem C06_camellia_refuted : bc_create camellia_desc 0 (repeat 1 9 ++ repeat 0 7) <> bc_create camellia_desc 0 (repeat 1 9).
Proof. exact camellia_nine_refuted. Qed.
Print Assumptions C06_camellia_refuted.
(** Blowfish repeats the key, Serpent appends a one bit and zeros; both as published *)
Theorem C06_blowfish r key : (0 < length key)%nat -> (length key <= 28)%nat ->
  bc_create blowfish_desc r (key ++ key) = bc_create blowfish_desc r key.
Proof. exact (blowfish_repeats r key). Qed.
Print Assumptions C06_blowfish.
Theorem C06_blowfish_refuted : ~ zero_extends (fun _ _ => True) blowfish_desc.
Proof. exact blowfish_zeros_refuted. Qed.
Print Assumptions C06_blowfish_refuted.
Theorem C06_serpent r key : (0 < length key < 32)%nat ->
  bc_create serpent_desc r (key ++ 1 :: repeat 0 (31 - length key)) = bc_create serpent_desc r key.
Proof. exact (serpent_pad r key). Qed.
Print Assumptions C06_serpent.
Theorem C06_serpent_refuted : ~ zero_extends (fun _ _ => True) serpent_desc.
Proof. exact serpent_zeros_refuted. Qed.
Print Assumptions C06_serpent_refuted.
(** SAFER and SAFER++ read past the end of a key that does not have 8 or 16 (16 or 32) bytes *)
Theorem C06_safer_refuted sk r key : key_ok 16 key -> length key <> 8%nat -> length key <> 16%nat -> r < 2 ^ 28 - 1 ->
  bc_create (safer_desc sk) r key = Err OobRead.
Proof. exact (safer_short sk r key). Qed.
Print Assumptions C06_safer_refuted.
Theorem C06_saferpp_refuted r key : key_ok 32 key -> length key <> 16%nat -> length key <> 32%nat -> r < 2 ^ 27 - 1 ->
  bc_create saferpp_desc r key = Err OobRead.
Proof. exact (saferpp_short r key). Qed.
Print Assumptions C06_saferpp_refuted.
Example C06_safer_key : key_ok 16 [1; 2; 3] /\ length [1; 2; 3] <> 8%nat /\ length [1; 2; 3] <> 16%nat.
Proof. split; [split; [repeat constructor|split; cbn; repeat constructor]|split; discriminate]. Qed.
Example C06_classes : same_words 4 5 8 /\ ~ same_words 4 4 5. Proof. split; [reflexivity|discriminate]. Qed.

(** C07: tweaks *)
Theorem C07_threefish p r key tweak : In p [threefish256; threefish512; threefish1024] ->
  key_ok (8 * tf_n p) key -> tf_rounds_ok p r -> (length tweak <= 16)%nat ->
  exists s s', tf_create p r key = Ok s /\ tf_tweak s tweak = Ok s' /\
    permutation (8 * tf_n p) (tf_encrypt p s') (tf_decrypt p s').
Proof. exact (threefish_tweak p r key tweak). Qed.
Print Assumptions C07_threefish.
Theorem C07_trax p r key tweak : In p [trax_m; trax_l] -> key_ok (4 * tr_n p) key ->
  (trax_r p r + 1) * (4 * N.of_nat (tr_n p)) < 2 ^ 32 -> bytes_ok tweak -> (length tweak <= 2 * tr_n p)%nat ->
  exists s s', trax_create p r key = Ok s /\ trax_set_tweak p s tweak = Ok s' /\
    permutation (4 * tr_n p) (trax_encrypt p s') (trax_decrypt p s').
Proof. exact (trax_tweak_perm p r key tweak). Qed.
Print Assumptions C07_trax.
(** the tweak is extended by zero bytes and replaces any earlier tweak *)
Theorem C07_threefish_zeros s s1 tweak tweak1 n : tf_tweak s tweak1 = Ok s1 -> (length tweak + n <= 16)%nat ->
  tf_tweak s1 (tweak ++ repeat 0 n) = tf_tweak s tweak.
Proof. exact (tf_tweak_zeros s s1 tweak tweak1 n). Qed.
Print Assumptions C07_threefish_zeros.
Theorem C07_trax_zeros p s s1 tweak tweak1 n : trax_set_tweak p s tweak1 = Ok s1 -> (length tweak + n <= 2 * tr_n p)%nat ->
  trax_set_tweak p s1 (tweak ++ repeat 0 n) = trax_set_tweak p s tweak.
Proof. exact (trax_tweak_zeros p s s1 tweak tweak1 n). Qed.
Print Assumptions C07_trax_zeros.
(** re-keying resets the tweak *)
Theorem C07_threefish_rekey p s r key : tf_recreate p s r key = tf_create p r key.
Proof. exact (threefish_rekey p s r key). Qed.
Print Assumptions C07_threefish_rekey.
Theorem C07_trax_rekey p s s' r key0 key tweak : trax_create p r key0 = Ok s -> trax_set_tweak p s tweak = Ok s' ->
  length key = length key0 -> trax_recreate p s' r key = trax_create p r key.
Proof. exact (trax_tweak_rekey p s s' r key0 key tweak). Qed.
Print Assumptions C07_trax_rekey.
(** different tweaks give different objects: nothing of the tweak is lost *)
Theorem C07_threefish_injective s s' t1 t2 : length t1 = 16%nat -> length t2 = 16%nat -> bytes_ok t1 -> bytes_ok t2 ->
  tf_tweak s t1 = Ok s' -> tf_tweak s t2 = Ok s' -> t1 = t2.
Proof. exact (tf_tweak_inj s s' t1 t2). Qed.
Print Assumptions C07_threefish_injective.
(** kripto_block_tweak does not check the length: longer tweaks are written past the tweak *)
Theorem C07_length_refuted s tweak : (16 < length tweak)%nat -> tf_tweak s tweak = Err OobWrite.
Proof. exact (tf_tweak_long s tweak). Qed.
Print Assumptions C07_length_refuted.
