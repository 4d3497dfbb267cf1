(** The descriptor of each modelled block cipher (the [static const kripto_desc_block] at the end
    of each file in lib/block).  For ciphers with a tweak, create sets it to zero. *)
From Coq Require Import NArith List.
From Verif Require Import Lib.Res Model.BlockApi Model.Tea Model.Xtea Model.Rc5 Model.Rc6 Model.Speck Model.Simon
  Model.Threefish Model.Lea Model.Sparx Model.Noekeon Model.Rectangle Model.Rc2 Model.Threeway Model.Gost Model.Idea Model.Rijndael
  Model.Seed Model.Sm4 Model.Skipjack Model.Cast5 Model.Des Model.Blowfish Model.Camellia Model.Twofish Model.Serpent Model.Shacal2 Model.Safer Model.Saferpp Model.Khazad Model.Anubis Model.Aria.
Import ListNotations.
Local Open Scope nat_scope.

(** tea.c:109-120 *)
Definition tea_desc := {| bc_bs := 8; bc_maxkey := tea_maxkey; bc_create := tea_create; bc_recreate := tea_recreate;
  bc_enc := tea_encrypt; bc_dec := tea_decrypt |}.
(** xtea.c:156-167 *)
Definition xtea_desc := {| bc_bs := 8; bc_maxkey := xtea_maxkey; bc_create := xtea_create; bc_recreate := xtea_recreate;
  bc_enc := xtea_encrypt; bc_dec := xtea_decrypt |}.
(** rc5.c:170-181 *)
Definition rc5_desc := {| bc_bs := 8; bc_maxkey := rc5_maxkey; bc_create := rc5_create; bc_recreate := rc5_recreate;
  bc_enc := rc5_encrypt; bc_dec := rc5_decrypt |}.
(** rc6.c:211-222 *)
Definition rc6_desc := {| bc_bs := 16; bc_maxkey := rc6_maxkey; bc_create := rc6_create; bc_recreate := rc6_recreate;
  bc_enc := rc6_encrypt; bc_dec := rc6_decrypt |}.
(** speck32.c:158-169, speck64.c:158-169, speck128.c:158-169 *)
Definition speck_desc p := {| bc_bs := 2 * sp_k p; bc_maxkey := sp_maxkey p; bc_create := speck_create p;
  bc_recreate := speck_recreate p; bc_enc := speck_encrypt p; bc_dec := speck_decrypt p |}.
(** simon32.c:168-179, simon64.c:179-190, simon128.c:196-207 *)
Definition simon_desc p := {| bc_bs := 2 * si_k p; bc_maxkey := si_maxkey p; bc_create := simon_create p;
  bc_recreate := simon_recreate p; bc_enc := simon_encrypt p; bc_dec := simon_decrypt p |}.
(** threefish256.c:214-225, threefish512.c:283-294, threefish1024.c:422-433 *)
Definition threefish_desc p := {| bc_bs := 8 * tf_n p; bc_maxkey := tf_maxkey p; bc_create := tf_create p;
  bc_recreate := tf_recreate p; bc_enc := tf_encrypt p; bc_dec := tf_decrypt p |}.
(** lea.c:263-274 *)
Definition lea_desc := {| bc_bs := 16; bc_maxkey := lea_maxkey; bc_create := lea_create; bc_recreate := lea_recreate;
  bc_enc := lea_encrypt; bc_dec := lea_decrypt |}.
(** crax_s.c:179-190 *)
Definition crax_desc := {| bc_bs := 8; bc_maxkey := crax_maxkey; bc_create := crax_create; bc_recreate := crax_recreate;
  bc_enc := crax_encrypt; bc_dec := crax_decrypt |}.
(** trax_m.c:244-255, trax_l.c:312-323 *)
Definition trax_desc p := {| bc_bs := 4 * tr_n p; bc_maxkey := trax_maxkey p; bc_create := trax_create p;
  bc_recreate := trax_recreate p; bc_enc := trax_encrypt p; bc_dec := trax_decrypt p |}.
(** noekeon.c:217-228 *)
Definition noekeon_desc := {| bc_bs := 16; bc_maxkey := noek_maxkey; bc_create := noek_create; bc_recreate := noek_recreate;
  bc_enc := noek_encrypt; bc_dec := noek_decrypt |}.
(** rectangle.c:300-311 *)
Definition rectangle_desc := {| bc_bs := 8; bc_maxkey := rect_maxkey; bc_create := rect_create; bc_recreate := rect_recreate;
  bc_enc := rect_encrypt; bc_dec := rect_decrypt |}.
(** rc2.c:212-223 *)
Definition rc2_desc := {| bc_bs := 8; bc_maxkey := rc2_maxkey; bc_create := rc2_create; bc_recreate := rc2_recreate;
  bc_enc := rc2_encrypt; bc_dec := rc2_decrypt |}.
(** 3way.c:224-235 *)
Definition threeway_desc := {| bc_bs := 12; bc_maxkey := tw_maxkey; bc_create := tw_create; bc_recreate := tw_recreate;
  bc_enc := tw_encrypt; bc_dec := tw_decrypt |}.
(** gost.c:205-269, one descriptor per set of S-boxes *)
Definition gost_desc sb := {| bc_bs := 8; bc_maxkey := gost_maxkey; bc_create := gost_create sb; bc_recreate := gost_recreate sb;
  bc_enc := gost_encrypt; bc_dec := gost_decrypt |}.
(** idea.c:226-237 *)
Definition idea_desc := {| bc_bs := 8; bc_maxkey := idea_maxkey; bc_create := idea_create; bc_recreate := idea_recreate;
  bc_enc := idea_encrypt; bc_dec := idea_decrypt |}.

(** rijndael.c:948-965, 1181-1198 *)
Definition rijndael128_desc := {| bc_bs := 16; bc_maxkey := rj_maxkey; bc_create := rijndael128_create; bc_recreate := rijndael128_recreate;
  bc_enc := rijndael128_encrypt; bc_dec := rijndael128_decrypt |}.
Definition rijndael256_desc := {| bc_bs := 32; bc_maxkey := rj_maxkey; bc_create := rijndael256_create; bc_recreate := rijndael256_recreate;
  bc_enc := rijndael256_encrypt; bc_dec := rijndael256_decrypt |}.

(** seed.c:471-482 *)
Definition seed_desc := {| bc_bs := 16; bc_maxkey := seed_maxkey; bc_create := seed_create; bc_recreate := seed_recreate;
  bc_enc := seed_encrypt; bc_dec := seed_decrypt |}.
(** sm4.c:236-247 *)
Definition sm4_desc := {| bc_bs := 16; bc_maxkey := sm4_maxkey; bc_create := sm4_create; bc_recreate := sm4_recreate;
  bc_enc := sm4_encrypt; bc_dec := sm4_decrypt |}.
(** skipjack.c:239-250 *)
Definition skipjack_desc := {| bc_bs := 8; bc_maxkey := skipjack_maxkey; bc_create := skipjack_create; bc_recreate := skipjack_recreate;
  bc_enc := skipjack_encrypt; bc_dec := skipjack_decrypt |}.
(** cast5.c:815-826 *)
Definition cast5_desc := {| bc_bs := 8; bc_maxkey := cast5_maxkey; bc_create := cast5_create; bc_recreate := cast5_recreate;
  bc_enc := cast5_encrypt; bc_dec := cast5_decrypt |}.
(** des.c:529-540 *)
Definition des_desc := {| bc_bs := 8; bc_maxkey := des_maxkey; bc_create := des_create; bc_recreate := des_recreate;
  bc_enc := des_encrypt; bc_dec := des_decrypt |}.
(** blowfish.c:533-544 *)
Definition blowfish_desc := {| bc_bs := 8; bc_maxkey := blowfish_maxkey; bc_create := blowfish_create; bc_recreate := blowfish_recreate;
  bc_enc := blowfish_encrypt; bc_dec := blowfish_decrypt |}.
(** camellia.c:679-690 *)
Definition camellia_desc := {| bc_bs := 16; bc_maxkey := camellia_maxkey; bc_create := camellia_create; bc_recreate := camellia_recreate;
  bc_enc := camellia_encrypt; bc_dec := camellia_decrypt |}.
(** twofish.c:1238-1249 *)
Definition twofish_desc := {| bc_bs := 16; bc_maxkey := twofish_maxkey; bc_create := twofish_create; bc_recreate := twofish_recreate;
  bc_enc := twofish_encrypt; bc_dec := twofish_decrypt |}.
(** serpent.c:721-732 *)
Definition serpent_desc := {| bc_bs := 16; bc_maxkey := serpent_maxkey; bc_create := serpent_create; bc_recreate := serpent_recreate;
  bc_enc := serpent_encrypt; bc_dec := serpent_decrypt |}.
(** shacal2.c:248-259 *)
Definition shacal2_desc := {| bc_bs := 32; bc_maxkey := shacal2_maxkey; bc_create := shacal2_create; bc_recreate := shacal2_recreate;
  bc_enc := shacal2_encrypt; bc_dec := shacal2_decrypt |}.
(** safer.c:415-426 and 428-439 ([sk] true) *)
Definition safer_desc sk := {| bc_bs := 8; bc_maxkey := safer_maxkey; bc_create := safer_create sk;
  bc_recreate := safer_recreate sk; bc_enc := safer_encrypt; bc_dec := safer_decrypt |}.
(** saferpp.c:424-435 *)
Definition saferpp_desc := {| bc_bs := 16; bc_maxkey := saferpp_maxkey; bc_create := saferpp_create; bc_recreate := saferpp_recreate;
  bc_enc := saferpp_encrypt; bc_dec := saferpp_decrypt |}.
(** khazad.c:761-772 *)
Definition khazad_desc := {| bc_bs := 8; bc_maxkey := khazad_maxkey; bc_create := khazad_create; bc_recreate := khazad_recreate;
  bc_enc := khazad_encrypt; bc_dec := khazad_decrypt |}.
(** anubis.c:784-795 *)
Definition anubis_desc := {| bc_bs := 16; bc_maxkey := anubis_maxkey; bc_create := anubis_create; bc_recreate := anubis_recreate;
  bc_enc := anubis_encrypt; bc_dec := anubis_decrypt |}.
(** aria.c:719-730 *)
Definition aria_desc := {| bc_bs := 16; bc_maxkey := aria_maxkey; bc_create := aria_create; bc_recreate := aria_recreate;
  bc_enc := aria_encrypt; bc_dec := aria_decrypt |}.

(** ciphers that accept every key of 1 .. maxkey bytes with the default rounds *)
Definition sound_ciphers : list bcipher :=
  [tea_desc; xtea_desc; rc5_desc; rc6_desc; simon_desc simon32; simon_desc simon64; simon_desc simon128;
   threefish_desc threefish256; threefish_desc threefish512; threefish_desc threefish1024; lea_desc; crax_desc;
   trax_desc trax_m; trax_desc trax_l; noekeon_desc; rectangle_desc; rc2_desc; threeway_desc;
   gost_desc gost_cbr; gost_desc gost_r3412; idea_desc; rijndael128_desc;
   seed_desc; sm4_desc; skipjack_desc; cast5_desc; des_desc; blowfish_desc; camellia_desc; twofish_desc; serpent_desc;
   shacal2_desc; khazad_desc; anubis_desc; aria_desc].
