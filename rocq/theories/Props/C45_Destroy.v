(** C45: destroying objects. *)
From Coq Require Import NArith Arith List Bool.
From Verif Require Import Lib.Res Model.BlockApi Model.StreamApi Model.MacApi Model.Modes Model.Omac Model.Eax Model.Ciphers Model.Xtea Model.Rc5 Model.Rc6 Model.Speck Model.Simon Model.Threefish Model.Lea
  Model.Sparx Model.Gost Model.Destroy Spec.Ae Spec.Destroy Proof.DestroyP Proof.WipedP Proof.DestroyAeP.
Import ListNotations.

(** Block ciphers: for every object made by create and given any keys by recreate, whatever sizeof(kripto_block) is, destroy wipes all the memory
    that create allocated and nothing beyond it, then frees it. *)
Theorem C45_block_ciphers :
  block_wiped xtea_desc xtea_alloc xtea_wiped /\
  block_wiped rc5_desc rc5_alloc rc5_wiped /\
  block_wiped rc6_desc rc6_alloc rc6_wiped /\
  block_wiped (speck_desc speck32) (speck_alloc speck32 1) (speck_wiped 1) /\
  block_wiped (speck_desc speck64) (speck_alloc speck64 2) (speck_wiped 2) /\
  block_wiped (speck_desc speck128) (speck_alloc speck128 3) (speck_wiped 3) /\
  block_wiped (simon_desc simon32) (simon_alloc simon32 1) (simon_wiped 1) /\
  block_wiped (simon_desc simon64) (simon_alloc simon64 2) (simon_wiped 2) /\
  block_wiped (simon_desc simon128) (simon_alloc simon128 3) (simon_wiped 3) /\
  block_wiped lea_desc lea_alloc lea_wiped /\
  block_wiped (trax_desc trax_m) (trax_alloc trax_m 4) (trax_wiped 4) /\
  block_wiped (trax_desc trax_l) (trax_alloc trax_l 5) (trax_wiped 5) /\
  block_wiped rectangle_desc rect_alloc rect_wiped /\
  block_wiped idea_desc idea_alloc idea_wiped /\
  block_wiped rijndael128_desc (rj_alloc 10 5) (rj_wiped 5) /\
  block_wiped rijndael256_desc (rj_alloc 14 6) (rj_wiped 6) /\
  block_wiped seed_desc seed_alloc seed_wiped /\
  block_wiped sm4_desc sm4_alloc sm4_wiped /\
  block_wiped blowfish_desc blowfish_alloc blowfish_wiped /\
  block_wiped twofish_desc twofish_alloc twofish_wiped /\
  block_wiped serpent_desc serpent_alloc serpent_wiped /\
  block_wiped shacal2_desc shacal2_alloc shacal2_wiped /\
  block_wiped saferpp_desc saferpp_alloc saferpp_wiped /\
  block_wiped khazad_desc khazad_alloc khazad_wiped /\
  block_wiped anubis_desc anubis_alloc anubis_wiped /\
  block_wiped aria_desc aria_alloc aria_wiped.
Proof. repeat apply conj; [exact xtea_all_wiped|exact rc5_all_wiped|exact rc6_all_wiped|exact (speck_all_wiped _ _)|exact (speck_all_wiped _ _)|exact (speck_all_wiped _ _)|exact (simon_all_wiped _ _)|exact (simon_all_wiped _ _)|exact (simon_all_wiped _ _)|exact lea_all_wiped|exact (trax_all_wiped _ _)|exact (trax_all_wiped _ _)|exact rect_all_wiped|exact idea_all_wiped|exact rijndael128_all_wiped|exact rijndael256_all_wiped|exact seed_all_wiped|exact sm4_all_wiped|exact blowfish_all_wiped|exact twofish_all_wiped|exact serpent_all_wiped|exact shacal2_all_wiped|exact saferpp_all_wiped|exact khazad_all_wiped|exact anubis_all_wiped|exact aria_all_wiped]. Qed.
Print Assumptions C45_block_ciphers.
Theorem C45_gost sb : block_wiped (gost_desc sb) gost_alloc gost_wiped.
Proof. exact (gost_all_wiped sb). Qed.
Print Assumptions C45_gost.
Theorem C45_safer sk : block_wiped (safer_desc sk) safer_alloc safer_wiped.
Proof. exact (safer_all_wiped sk). Qed.
Print Assumptions C45_safer.
(** those of a fixed size *)
Theorem C45_fixed_ciphers : Forall (fun c => block_wiped c fixed_alloc fixed_wiped)
  [tea_desc; crax_desc; noekeon_desc; rc2_desc; threeway_desc; skipjack_desc; cast5_desc; des_desc; camellia_desc; (threefish_desc threefish256); (threefish_desc threefish512); (threefish_desc threefish1024)].
Proof. repeat apply Forall_cons; try apply Forall_nil; apply fixed_size. Qed.
Print Assumptions C45_fixed_ciphers.
(** Hashes (but Skein), ChaCha, Salsa20 and RC4: a structure and nothing behind it. *)
Theorem C45_plain st n : leaves_nothing (plain_thing st n) (plain_destroy st n).
Proof. exact (plain_clean st n). Qed.
Print Assumptions C45_plain.
(** Objects with one other inside: the modes, OMAC, XCBC, HMAC and the three Skeins, over whatever leaves nothing. *)
Theorem C45_one P d st n : leaves_nothing P d -> leaves_nothing (one_thing P st n) (one_destroy st d n).
Proof. exact (one_clean P d st n). Qed.
Print Assumptions C45_one.
(** Keccak as MAC or stream cipher: the structure of two pointers and a number is not wiped, the hash is. *)
Theorem C45_keccak P d : leaves_nothing P d -> leaves_nothing (holder P) (keccak_destroy d).
Proof. exact (holder_clean P d). Qed.
Print Assumptions C45_keccak.
(** EAX: the whole tree of a block cipher object of its own in CTR and in both OMACs. *)
Theorem C45_eax c alloc wiped st1 st2 st3 st len n1 s1 n2 s2 : block_wiped c alloc wiped -> live c alloc n1 s1 -> live c alloc n2 s2 ->
  leaves_nothing
    (eax_thing (one_thing (plain_thing st1 n1) st2 (two_blocks (N.of_nat (bc_bs c)))) (one_thing (plain_thing st1 n2) st3 (four_blocks (N.of_nat (bc_bs c)))) st len)
    (eax_destroy st (one_destroy st2 (plain_destroy st1 (wiped s1)) (two_blocks (N.of_nat (bc_bs c)))) (one_destroy st3 (plain_destroy st1 (wiped s2)) (four_blocks (N.of_nat (bc_bs c)))) len).
Proof.
  exact (fun W L1 L2 => eax_clean _ _ _ _ st len (local_one _ _ _ (local_plain _ _)) (local_one _ _ _ (local_plain _ _))
    (one_clean _ _ _ _ (W _ _ _ L1)) (one_clean _ _ _ _ (W _ _ _ L2))).
Qed.
Print Assumptions C45_eax.
(** EAX2 over whatever leaves nothing, when there is nothing behind the bytes of iv it counts *)
Theorem C45_eax2 S M ds dm st len : local S -> local M -> leaves_nothing S ds -> leaves_nothing M dm ->
  leaves_nothing (eax2_thing S M st len) (eax2_destroy st ds dm len).
Proof. exact (eax2_clean S M ds dm st len). Qed.
Print Assumptions C45_eax2.
(** which holds of an object that was not recreated: it counts all the room it has *)
Theorem C45_eax2_created sd md r key iv n s0 s : ae_create (eax2_desc sd md) r key iv n = Ok s0 -> ae_used (eax2_desc sd md) s0 s ->
  ax_cap sd md s = ax_len sd md s /\ length (ax_iv sd md s) <= ax_len sd md s.
Proof. exact (eax2_no_room sd md r key iv n s0 s). Qed.
Print Assumptions C45_eax2_created.
(** and after recreate with an IV not longer than the tag *)
Theorem C45_eax2_recreated sd md r0 key0 iv0 n0 s0 s r key iv n s1 : ae_create (eax2_desc sd md) r0 key0 iv0 n0 = Ok s0 -> ae_used (eax2_desc sd md) s0 s ->
  length iv <= n -> (forall m q t, mac_tag md m (length iv) = Ok (q, t) -> length t = length iv) ->
  ae_recreate (eax2_desc sd md) s r key iv n = Ok s1 -> ax_len sd md s1 = n /\ Forall (eq 0%N) (skipn n (ax_iv sd md s1)).
Proof. exact (fun E U => eax2_recreated sd md s r key iv n s1 (used_tight sd md s0 s U (create_tight sd md r0 key0 iv0 n0 s0 E))). Qed.
Print Assumptions C45_eax2_recreated.
(** but not with a longer one: bytes of the encrypted IV lie behind those that destroy wipes *)
Theorem C45_eax2_refuted : exists s0 s1,
  ae_create (eax2_desc (ctr_stream tea_desc) (omac_desc tea_desc)) 0 [1; 2; 3; 4]%N [1; 2; 3; 4; 5; 6; 7; 8]%N 8 = Ok s0 /\
  ae_recreate (eax2_desc (ctr_stream tea_desc) (omac_desc tea_desc)) s0 0 [1; 2; 3; 4]%N [1; 2; 3; 4; 5; 6; 7; 8]%N 4 = Ok s1 /\
  ~ Forall (eq 0%N) (skipn (ax_len _ _ s1) (ax_iv _ _ s1)).
Proof. exact eax2_left_refuted. Qed.
Print Assumptions C45_eax2_refuted.
(** the random number generator *)
Theorem C45_random S ds st : local S -> leaves_nothing S ds -> leaves_nothing (random_thing S st) (random_destroy st ds).
Proof. exact (random_clean S ds st). Qed.
Print Assumptions C45_random.

(** RC5 with 3 rounds in CTR mode: 40 bytes of structure and 32 of key schedule, 48 and 16 *)
Definition rc5_ctr : dheap := {| dh_freed := []; dh_cell := fun a => match a with
  | 1 => Some {| c_ptrs := [2]; c_bytes := repeat 7%N 64; c_open := 0 |}
  | 2 => Some {| c_ptrs := []; c_bytes := repeat 9%N 72; c_open := 0 |}
  | _ => None end |}.
Example C45_case : one_thing (plain_thing 40 (rc5_alloc 3 [1]%N)) 48 (two_blocks 8) rc5_ctr 1 [1; 2] /\
  (exists s, live rc5_desc rc5_alloc 32 s /\ rc5_wiped s = 32%N) /\
  match one_destroy 48 (plain_destroy 40 32) (two_blocks 8) 1 rc5_ctr with Ok h => map c_bytes (dh_freed h) = [repeat 0%N 64; repeat 0%N 72] | Err _ => False end.
Proof.
  split; [|split].
  - split; [discriminate|]. exists 2, [2], (repeat 7%N 64). split; [split; [discriminate|split; [reflexivity|]]; exists (repeat 9%N 72); split; reflexivity|].
    split; [intros [H|[]]; discriminate H|]. repeat split.
  - eexists. split; [apply (live_create rc5_desc rc5_alloc 3 [1]%N); reflexivity|]. reflexivity.
  - vm_compute. reflexivity.
Qed.
(** a destroy that forgets the last word is seen *)
Example C45_case_bad : match one_destroy 48 (plain_destroy 40 28) (two_blocks 8) 1 rc5_ctr with
  Ok h => map c_bytes (dh_freed h) = [repeat 0%N 64; repeat 0%N 68 ++ [9; 9; 9; 9]%N] | Err _ => False end.
Proof. vm_compute. reflexivity. Qed.
