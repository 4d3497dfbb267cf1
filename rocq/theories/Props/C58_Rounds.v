(** C58: a chosen number of rounds gives the member of the cipher family of Spec/Rounds.v with that many rounds. *)
From Coq Require Import String.
From Coq Require Import NArith Arith List Bool Lia.
From Verif Require Import Lib.Res Lib.Bytes Lib.Hex Spec.Block Spec.Arx Spec.GostAny Spec.Rounds Spec.Gf Spec.Pub1 Spec.Pub2 Spec.Pub3 Spec.Pub5 Spec.Pub6 Spec.DesPub Model.BlockApi Model.Gost Model.Speck Model.Simon Model.Threefish Model.Ciphers
  Proof.LeaPubP Proof.GostAnyP Proof.RoundsP Proof.Rounds2P Proof.Rounds3P Proof.TwofishPubP Proof.SeedPubP Proof.Shacal2PubP Proof.Sm4PubP Proof.RectanglePubP Proof.SerpentPubP.
Import ListNotations.
Local Open Scope string_scope.
Local Open Scope N_scope.

Theorem C58_tea : is_rounds tea_desc (fun r key => (0 < List.length key <= 16)%nat /\ N.of_nat r < 2 ^ 32) tea_cipher.
Proof. exact tea_rounds. Qed.
Print Assumptions C58_tea.

Theorem C58_xtea : is_rounds xtea_desc (fun r key => (0 < List.length key <= 16)%nat /\ Nat.even r = true /\ N.of_nat r < 2 ^ 30) (fun r => xtea_any (r / 2)).
Proof. exact xtea_rounds_any. Qed.
Print Assumptions C58_xtea.
(** with a key of four words and 64 rounds this is XTEA itself *)
Theorem C58_xtea_std : forall key pt, List.length key = 16%nat -> xtea_any 32 key pt = xtea_cipher 32 key pt.
Proof. exact xtea_any_32. Qed.
Print Assumptions C58_xtea_std.
(** one key word is not the same as four *)
Example C58_xtea_ex : xtea_any 3 [1; 2; 3; 4] (repeat 0 8) = [0; 29; 22; 155; 236; 30; 215; 219] /\
  xtea_cipher 3 [1; 2; 3; 4; 0; 0; 0; 0; 0; 0; 0; 0; 0; 0; 0; 0] (repeat 0 8) = [3; 161; 24; 70; 93; 120; 228; 109].
Proof. vm_compute. split; reflexivity. Qed.

Theorem C58_rc5 : is_rounds rc5_desc (fun r key => (0 < List.length key <= 8 * (r + 1))%nat /\ (List.length key <= 255)%nat /\ N.of_nat r < 2 ^ 29 - 1) rc5_cipher.
Proof. exact rc5_rounds_any. Qed.
Print Assumptions C58_rc5.
Theorem C58_rc6 : is_rounds rc6_desc (fun r key => (0 < List.length key <= 8 * (r + 2))%nat /\ (List.length key <= 255)%nat /\ N.of_nat r < 2 ^ 29 - 2) rc6_cipher.
Proof. exact rc6_rounds_any. Qed.
Print Assumptions C58_rc6.
(** RC5-32/16/16 *)
Example C58_rc5_case : let key := repeat 0 16 in (0 < List.length key <= 8 * (16 + 1))%nat /\ N.of_nat 16 < 2 ^ 29 - 1.
Proof. cbv zeta. split; [cbn; lia|reflexivity]. Qed.
Example C58_rc5_ex : rc5_cipher 16 (repeat 0 16) (repeat 0 8) = [148; 97; 45; 12; 61; 118; 79; 200].
Proof. vm_compute. reflexivity. Qed.

Theorem C58_gost sb : nibbles sb -> is_rounds (gost_desc sb)
  (fun r key => (0 < List.length key <= 32)%nat /\ Nat.even r = true /\ N.of_nat r < 2 ^ 30 /\ (2 * words_of 4 (List.length key) <= r)%nat) (gost_any sb).
Proof. exact (gost_rounds_any sb). Qed.
Print Assumptions C58_gost.
Theorem C58_gost_std : forall sb key pt, List.length key = 32%nat -> gost_any sb 32 key pt = gost_cipher sb key pt.
Proof. exact gost_any_32. Qed.
Print Assumptions C58_gost_std.
(** the words of a key of three words in eight rounds *)
Example C58_gost_order : gost_order_any 3 8 = [0; 1; 2; 0; 1; 2; 1; 0]%nat /\ gost_order_any 8 32 = gost_order.
Proof. split; reflexivity. Qed.
Example C58_gost_case : nibbles gost_r3412 /\ (2 * words_of 4 9 <= 8)%nat /\ Nat.even 8 = true.
Proof. exact (conj gost_r3412_nibbles (conj (le_n_S _ _ (le_n_S _ _ (le_n_S _ _ (le_n_S _ _ (le_n_S _ _ (le_n_S _ _ (Nat.le_0_l 2))))))) eq_refl)). Qed.

Theorem C58_idea : is_rounds idea_desc (fun r key => (0 < List.length key <= 16)%nat /\ 24 * N.of_nat r + 16 < 2 ^ 32) idea_any.
Proof. exact idea_rounds_any. Qed.
Print Assumptions C58_idea.
Theorem C58_idea_std : forall key pt, idea_any 8 key pt = idea_cipher key pt.
Proof. exact idea_any_8. Qed.
Print Assumptions C58_idea_std.

Theorem C58_lea : is_rounds lea_desc (fun r key => (0 < List.length key <= 32)%nat /\ (r mod 4 = 0)%nat /\ N.of_nat r * 24 < 2 ^ 32) lea_any.
Proof. exact lea_rounds_any. Qed.
Print Assumptions C58_lea.
Example C58_lea_ex : lea_any 24 (hex "0f1e2d3c4b5a69788796a5b4c3d2e1f0") (hex "101112131415161718191a1b1c1d1e1f") = hex "9fc84e3528c6c6185532c7a704648bfd".
Proof. vm_compute. reflexivity. Qed.

Theorem C58_speck32 : is_rounds (speck_desc speck32) (speck_when 2 16) (speck_any 16 2 7 2).
Proof. exact speck32_rounds. Qed.
Print Assumptions C58_speck32.
Theorem C58_speck64 : is_rounds (speck_desc speck64) (speck_when 4 32) (speck_any 32 4 8 3).
Proof. exact speck64_rounds. Qed.
Print Assumptions C58_speck64.
Theorem C58_speck128 : is_rounds (speck_desc speck128) (speck_when 8 64) (speck_any 64 8 8 3).
Proof. exact speck128_rounds. Qed.
Print Assumptions C58_speck128.
Theorem C58_simon32 : is_rounds (simon_desc simon32) (simon_when 2 4) simon32_any.
Proof. exact simon32_rounds. Qed.
Print Assumptions C58_simon32.
Theorem C58_simon64 : is_rounds (simon_desc simon64) (simon_when 4 3) simon64_any.
Proof. exact simon64_rounds. Qed.
Print Assumptions C58_simon64.
Theorem C58_simon128 : is_rounds (simon_desc simon128) (simon_when 8 2) simon128_any.
Proof. exact simon128_rounds. Qed.
Print Assumptions C58_simon128.
(** two rounds of Speck64 with a key of six bytes; five rounds of Simon64 with a key of one byte *)
Example C58_speck_case : speck_when 4 32 2 [1; 2; 3; 4; 5; 6] /\ simon_when 4 3 5 [1].
Proof. unfold speck_when, simon_when, simon_words_of, words_of. cbn. repeat split; (lia || reflexivity). Qed.
(** Simon32/64 of the paper *)
Example C58_simon_ex : simon32_any 32 [0; 1; 8; 9; 0x10; 0x11; 0x18; 0x19] [0x77; 0x68; 0x65; 0x65] = [0xBB; 0xE9; 0x9B; 0xC6].
Proof. vm_compute. reflexivity. Qed.

(** The library object itself: one key word of four and six rounds *)
Example C58_xtea_case : exists s, bc_create xtea_desc 6 [1; 2; 3; 4] = Ok s /\ bc_enc xtea_desc s (repeat 0 8) = Ok (xtea_any 3 [1; 2; 3; 4] (repeat 0 8)).
Proof. eexists. split; vm_compute; reflexivity. Qed.

(** The key of SAFER must be given in full *)
Theorem C58_safer sk : is_rounds (safer_desc sk) (fun r key => (List.length key = 8 \/ List.length key = 16)%nat /\ N.of_nat r < 2 ^ 28 - 1) (safer_any sk).
Proof. exact (safer_rounds_any sk). Qed.
Print Assumptions C58_safer.
Theorem C58_saferpp : is_rounds saferpp_desc (fun r key => (List.length key = 16 \/ List.length key = 32)%nat /\ N.of_nat r < 2 ^ 27 - 1) saferpp_any.
Proof. exact saferpp_rounds_any. Qed.
Print Assumptions C58_saferpp.
Theorem C58_noekeon : is_rounds noekeon_desc (fun r key => (0 < List.length key <= 16)%nat /\ (r < 34)%nat) noekeon_any.
Proof. exact noekeon_rounds_any. Qed.
Print Assumptions C58_noekeon.
Theorem C58_noekeon_std : forall key pt, noekeon_any 16 key pt = noekeon_cipher key pt.
Proof. exact noekeon_any_16. Qed.
Print Assumptions C58_noekeon_std.
Theorem C58_crax : is_rounds crax_desc (fun r key => (0 < List.length key <= 16)%nat /\ N.of_nat r < 2 ^ 32) crax_any.
Proof. exact crax_rounds_any. Qed.
Print Assumptions C58_crax.
Theorem C58_crax_std : forall key pt, crax_any 10 key pt = crax_cipher key pt.
Proof. exact crax_any_10. Qed.
Print Assumptions C58_crax_std.
Theorem C58_khazad : is_rounds khazad_desc (fun r key => (0 < List.length key <= 16)%nat /\ (r <= 8)%nat) khazad_any.
Proof. exact khazad_rounds_any. Qed.
Print Assumptions C58_khazad.
Theorem C58_khazad_std : forall key pt, khazad_any 8 key pt = khazad_cipher key pt.
Proof. exact khazad_any_8. Qed.
Print Assumptions C58_khazad_std.
Theorem C58_anubis : is_rounds anubis_desc (fun r key => (0 < List.length key <= 40)%nat /\ (r <= 64)%nat) anubis_any.
Proof. exact anubis_rounds_any. Qed.
Print Assumptions C58_anubis.
Theorem C58_anubis_std : forall key pt, anubis_any (Nat.max 12 (8 + (List.length key + 3) / 4)) key pt = anubis_cipher key pt.
Proof. exact anubis_any_std. Qed.
Print Assumptions C58_anubis_std.
Theorem C58_seed : is_rounds seed_desc (fun r key => (0 < List.length key <= 16)%nat /\ N.of_nat r < 2 ^ 29) seed_any.
Proof. exact seed_rounds_any. Qed.
Print Assumptions C58_seed.
Theorem C58_seed_std : forall key pt, seed_any 16 key pt = seed_cipher key pt.
Proof. exact seed_any_16. Qed.
Print Assumptions C58_seed_std.
Theorem C58_shacal2 : is_rounds shacal2_desc (fun r key => (0 < List.length key <= 64)%nat /\ (r mod 8 = 0)%nat /\ (16 <= r <= 64)%nat) shacal2_any.
Proof. exact shacal2_rounds_any. Qed.
Print Assumptions C58_shacal2.
Theorem C58_shacal2_std : forall key pt, shacal2_any 64 key pt = shacal2_cipher key pt.
Proof. exact shacal2_any_64. Qed.
Print Assumptions C58_shacal2_std.
Theorem C58_threefish256 : is_tweak_rounds threefish256 threefish256_any.
Proof. exact threefish256_rounds. Qed.
Print Assumptions C58_threefish256.
Theorem C58_threefish512 : is_tweak_rounds threefish512 threefish512_any.
Proof. exact threefish512_rounds. Qed.
Print Assumptions C58_threefish512.
Theorem C58_threefish1024 : is_tweak_rounds threefish1024 threefish1024_any.
Proof. exact threefish1024_rounds. Qed.
Print Assumptions C58_threefish1024.
Theorem C58_threefish_std : threefish256_any 72 = threefish256_cipher /\ threefish512_any 72 = threefish512_cipher /\ threefish1024_any 80 = threefish1024_cipher.
Proof. exact threefish_any_std. Qed.
Print Assumptions C58_threefish_std.
Theorem C58_sm4 : is_rounds sm4_desc (fun r key => (0 < List.length key <= 16)%nat /\ (r mod 4 = 0)%nat /\ (r <= 32)%nat) sm4_any.
Proof. exact sm4_rounds_any. Qed.
Print Assumptions C58_sm4.
Theorem C58_sm4_std : forall key pt, sm4_any 32 key pt = sm4_cipher key pt.
Proof. exact sm4_any_32. Qed.
Print Assumptions C58_sm4_std.
Theorem C58_rectangle : is_rounds rectangle_desc (fun r key => (0 < List.length key <= 16)%nat /\ (r <= 25)%nat) rectangle_any.
Proof. exact rectangle_rounds_any. Qed.
Print Assumptions C58_rectangle.
Theorem C58_rectangle_std : forall key pt, rectangle_any 25 key pt = rectangle_cipher key pt.
Proof. exact rectangle_any_25. Qed.
Print Assumptions C58_rectangle_std.
Theorem C58_serpent : is_rounds serpent_desc (fun r key => (0 < List.length key <= 32)%nat /\ (r mod 8 = 0)%nat /\ N.of_nat r < 2 ^ 28) serpent_any.
Proof. exact serpent_rounds_any. Qed.
Print Assumptions C58_serpent.
Theorem C58_serpent_std : forall key pt, serpent_any 32 key pt = serpent_cipher key pt.
Proof. exact serpent_any_32. Qed.
Print Assumptions C58_serpent_std.
Theorem C58_twofish : is_rounds twofish_desc (fun r key => (8 < List.length key <= 32)%nat /\ Nat.even r = true /\ (r <= 124)%nat) twofish_any.
Proof. exact twofish_rounds_any. Qed.
Print Assumptions C58_twofish.
Theorem C58_twofish_std : forall key pt, twofish_any 16 key pt = twofish_cipher key pt.
Proof. exact twofish_any_16. Qed.
Print Assumptions C58_twofish_std.
Theorem C58_aria : is_rounds aria_desc (fun r key => aria_lengths key /\ Nat.even r = true /\ (r <= 16)%nat) aria_any.
Proof. exact aria_rounds_any. Qed.
Print Assumptions C58_aria.
Theorem C58_aria_std : forall key pt, (List.length key <= 32)%nat -> aria_any (8 + aria_size (List.length key) / 4) key pt = aria_cipher key pt.
Proof. exact aria_any_std. Qed.
Print Assumptions C58_aria_std.
(** DES and RC2 are the published cipher whatever round count is asked for *)
Theorem C58_des : is_rounds des_desc (fun _ key => (0 < List.length key <= 24)%nat) (fun _ => des_cipher).
Proof. exact des_rounds_any. Qed.
Print Assumptions C58_des.
Theorem C58_rc2 : is_rounds rc2_desc (fun _ key => (0 < List.length key <= 128)%nat) (fun _ => rc2_cipher).
Proof. exact rc2_rounds_any. Qed.
Print Assumptions C58_rc2.
(** Two rounds of Noekeon, three of CRAX, two of Khazad and of SEED, eight of Threefish-256 in the specification; then
    objects of SEED with two rounds and of SAFER SK with three *)
Example C58_more_ex :
  noekeon_any 2 [1; 2; 3] (repeat 0 16) = [34; 98; 214; 1; 238; 108; 84; 143; 23; 99; 40; 167; 25; 187; 48; 145] /\
  crax_any 3 [1; 2; 3] (repeat 0 8) = [34; 224; 174; 147; 250; 10; 151; 163] /\
  seed_any 2 [1; 2; 3] (repeat 0 16) = [165; 186; 123; 239; 107; 201; 239; 175; 177; 17; 62; 187; 166; 244; 10; 129] /\
  khazad_any 2 [1; 2; 3] (repeat 0 8) = [33; 139; 76; 85; 143; 100; 57; 15] /\
  threefish256_any 8 [1; 2; 3] [4] (repeat 0 32) =
    [34; 159; 177; 138; 249; 113; 244; 209; 77; 235; 188; 170; 114; 15; 146; 153; 217; 132; 121; 15; 181; 82; 122; 195; 175; 230; 232; 68; 203; 17; 35; 73].
Proof. vm_compute. repeat split. Qed.
Example C58_seed_case : exists s, bc_create seed_desc 2 [1; 2; 3] = Ok s /\ bc_enc seed_desc s (repeat 0 16) = Ok (seed_any 2 [1; 2; 3] (repeat 0 16)).
Proof.
  destruct (C58_seed 2%nat [1; 2; 3] ltac:(repeat constructor) ltac:(lia) ltac:(split; [cbn; lia|reflexivity])) as (s & E & H).
  exists s. split; [exact E|]. apply H. split; [reflexivity|repeat constructor].
Qed.
Example C58_safer_case : exists s, bc_create (safer_desc true) 3 [1; 2; 3; 4; 5; 6; 7; 8] = Ok s /\
  bc_enc (safer_desc true) s (repeat 0 8) = Ok (safer_any true 3 [1; 2; 3; 4; 5; 6; 7; 8] (repeat 0 8)).
Proof.
  destruct (C58_safer true 3%nat [1; 2; 3; 4; 5; 6; 7; 8] ltac:(repeat constructor) ltac:(lia) ltac:(split; [left; reflexivity|reflexivity])) as (s & E & H).
  exists s. split; [exact E|]. apply H. split; [reflexivity|repeat constructor].
Qed.
Example C58_serpent_case : exists s, bc_create serpent_desc 40 [1; 2; 3] = Ok s /\ bc_enc serpent_desc s (repeat 0 16) = Ok (serpent_any 40 [1; 2; 3] (repeat 0 16)).
Proof.
  destruct (C58_serpent 40%nat [1; 2; 3] ltac:(repeat constructor) ltac:(lia) ltac:(split; [cbn; lia|split; reflexivity])) as (s & E & H).
  exists s. split; [exact E|]. apply H. split; [reflexivity|repeat constructor].
Qed.
Example C58_aria_case : exists s, bc_create aria_desc 4 [1; 2; 3] = Ok s /\ bc_enc aria_desc s (repeat 0 16) = Ok (aria_any 4 [1; 2; 3] (repeat 0 16)).
Proof.
  destruct (C58_aria 4%nat [1; 2; 3] ltac:(repeat constructor) ltac:(lia) ltac:(split; [left; cbn; lia|split; [reflexivity|lia]])) as (s & E & H).
  exists s. split; [exact E|]. apply H. split; [reflexivity|repeat constructor].
Qed.
