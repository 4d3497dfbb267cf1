(** C51: OMAC, XCBC and EAX notice every damage that stays inside one block (Spec/Damage.v), with certainty, for tags of full length.
    [mac_notices d bs s]: for every splitting of the two messages the tags of [bs] bytes differ and verification refuses the old tag. *)
From Coq Require Import String NArith Arith List Bool.
From Verif Require Import Lib.Res Lib.Bytes Spec.Words Spec.Block Spec.Cipher Spec.Modes Spec.CbcMac Spec.Mac Spec.Ae Spec.Damage
  Model.Mem Model.BlockApi Model.StreamApi Model.MacApi Model.Omac Model.Eax Model.Ciphers Model.Threefish Model.Sparx Model.Gost Model.Simon
  Proof.CiphersP Proof.CbcMacP Proof.CbcMacPubP Proof.AeP Proof.DamageP.
Import ListNotations.
Local Open Scope nat_scope.
Local Notation length := List.length.
Local Notation concat := List.concat.

(** over every cipher object that works, made with any rounds *)
Theorem C51_omac c r key n b R : 0 < length key -> bc_create c r key = Ok b -> works c b -> cmac_poly (bc_bs c) = Some R -> n <= bc_bs c ->
  mac_notices (omac_desc c) (bc_bs c) (mac_create (omac_desc c) r key n).
Proof. exact (omac_one_block c r key n b R). Qed.
Theorem C51_omac_recreate c m r key n b R : 0 < length key -> bc_recreate c (om_block c m) r key = Ok b -> works c b -> cmac_poly (bc_bs c) = Some R ->
  mac_notices (omac_desc c) (bc_bs c) (mac_recreate (omac_desc c) m r key n).
Proof. exact (omac_one_block_re c m r key n b R). Qed.
Theorem C51_xcbc c r key n s s1 : 0 < length key -> bc_bs c < 256 -> bc_create c r key = Ok s -> works c s ->
  bc_recreate c s r (fn (bc_enc c s) (repeat 1%N (bc_bs c))) = Ok s1 -> works c s1 -> n <= bc_bs c ->
  mac_notices (xcbc_desc c) (bc_bs c) (mac_create (xcbc_desc c) r key n).
Proof. exact (xcbc_one_block c r key n s s1). Qed.
Theorem C51_eax c r key b F R iv n : key_ok (bc_maxkey c) key -> bc_create c r key = Ok b -> works c b -> enc_fn c b F -> recreate_ok c b r key -> cmac_poly (bc_bs c) = Some R ->
  bytes_ok iv -> length iv = bc_bs c -> n <= bc_bs c -> exists s0, ae_create (eax_desc c) r key iv n = Ok s0 /\ ae_notices (eax_desc c) (bc_bs c) s0.
Proof. exact (eax_one_block c r key b F R iv n). Qed.
(** with the default rounds: the ciphers of the library *)
Theorem C51_omac_ciphers : Forall (fun c => forall key n, key_ok (bc_maxkey c) key -> n <= bc_bs c -> mac_notices (omac_desc c) (bc_bs c) (mac_create (omac_desc c) 0 key n)) sound_ciphers.
Proof. exact omac_one_block_ciphers. Qed.
Theorem C51_xcbc_ciphers : Forall (fun c => forall key n, key_ok (bc_maxkey c) key -> n <= bc_bs c -> mac_notices (xcbc_desc c) (bc_bs c) (mac_create (xcbc_desc c) 0 key n))
  [tea_desc; noekeon_desc; rc2_desc; threeway_desc; crax_desc; threefish_desc threefish256; threefish_desc threefish512; threefish_desc threefish1024;
   xtea_desc; rc5_desc; rc6_desc; idea_desc; trax_desc trax_m; trax_desc trax_l; rectangle_desc;
   gost_desc gost_cbr; gost_desc gost_r3412; simon_desc simon32;
   seed_desc; sm4_desc; skipjack_desc; cast5_desc; des_desc; blowfish_desc; camellia_desc; twofish_desc; serpent_desc; shacal2_desc; khazad_desc].
Proof. exact xcbc_one_block_any. Qed.
Theorem C51_xcbc_block_key : Forall (fun c => forall key n, length key = bc_bs c -> key_ok (bc_maxkey c) key -> n <= bc_bs c -> mac_notices (xcbc_desc c) (bc_bs c) (mac_create (xcbc_desc c) 0 key n))
  [lea_desc; simon_desc simon64; simon_desc simon128; rijndael128_desc; anubis_desc; aria_desc].
Proof. exact xcbc_one_block_keys. Qed.
Theorem C51_eax_ciphers : Forall (fun c => forall key iv n, key_ok (bc_maxkey c) key -> bytes_ok iv -> length iv = bc_bs c -> n <= bc_bs c ->
  exists s0, ae_create (eax_desc c) 0 key iv n = Ok s0 /\ ae_notices (eax_desc c) (bc_bs c) s0) sound_ciphers.
Proof. exact eax_one_block_ciphers. Qed.
Print Assumptions C51_omac. Print Assumptions C51_omac_recreate. Print Assumptions C51_xcbc. Print Assumptions C51_eax.
Print Assumptions C51_omac_ciphers. Print Assumptions C51_xcbc_ciphers. Print Assumptions C51_xcbc_block_key. Print Assumptions C51_eax_ciphers.

(** the damage of the claim: the second block, and the last one that is short *)
Example C51_changed : one_block_changed 4 [1; 2; 3; 4; 5; 6]%N [1; 2; 3; 4; 9; 6]%N.
Proof. split; [reflexivity|]. split; [discriminate|]. exists 1. intros [|[|j]] H; [reflexivity|now destruct H|]. unfold block, slice. rewrite !skipn_all2; [reflexivity|..]; cbn; repeat apply le_n_S; apply Nat.le_0_l. Qed.
Definition tea_tags (key a b : list N) : res (list N * list N * N) :=
  let o := mac_create (omac_desc tea_desc) 0 key 8 in
  let* t := tag_of (omac_desc tea_desc) o [a] [8] in let* u := tag_of (omac_desc tea_desc) o [b] [8] in
  let* v := verify_of (omac_desc tea_desc) o [b] t in Ok (t, u, v).
Example C51_case : match tea_tags [1; 2; 3]%N (map N.of_nat (seq 0 20)) (upd (map N.of_nat (seq 0 20)) 17 99%N) with Ok (t, u, v) => negb (be_val t =? be_val u)%N && (v =? 0)%N | Err _ => false end = true.
Proof. vm_compute. reflexivity. Qed.
(** The limit of the claim: damage in two blocks can be chosen so that the tag stays.  The second block makes up for the change of the
    chaining value after the first. *)
Definition tea_twin (key b0 b0' b1 : list N) : res (list N) :=
  let* s := bc_create tea_desc 0 key in Ok (xor_bytes b1 (xor_bytes (fn (bc_enc tea_desc s) b0) (fn (bc_enc tea_desc s) b0'))).
Theorem C51_limit_two_blocks : exists key M M' t, length M' = length M /\ M' <> M /\
  tag_of (omac_desc tea_desc) (mac_create (omac_desc tea_desc) 0 key 8) [M] [8] = Ok t /\
  tag_of (omac_desc tea_desc) (mac_create (omac_desc tea_desc) 0 key 8) [M'] [8] = Ok t.
Proof.
  exists [1; 2; 3]%N, (repeat 7%N 16), (repeat 8%N 8 ++ match tea_twin [1; 2; 3]%N (repeat 7%N 8) (repeat 8%N 8) (repeat 7%N 8) with Ok x => x | Err _ => [] end). eexists.
  split; [vm_compute; reflexivity|]. split; [intros H; apply (f_equal (fun l => nth 0 l 0%N)) in H; vm_compute in H; discriminate|]. split; vm_compute; reflexivity.
Qed.
(** ... and a shorter tag can agree. *)
Theorem C51_limit_short_tag : exists key M M' t, one_block_changed 8 M M' /\
  tag_of (omac_desc tea_desc) (mac_create (omac_desc tea_desc) 0 key 8) [M] [1] = Ok t /\
  tag_of (omac_desc tea_desc) (mac_create (omac_desc tea_desc) 0 key 8) [M'] [1] = Ok t.
Proof.
  exists [1; 2; 3]%N, [0]%N, [38]%N. eexists. split; [|split; vm_compute; reflexivity]. split; [reflexivity|]. split; [discriminate|]. exists 0. intros [|j] H; [now destruct H|].
  unfold block, slice. rewrite !skipn_all2; [reflexivity|..]; cbn; repeat apply le_n_S; apply Nat.le_0_l.
Qed.
Print Assumptions C51_limit_two_blocks. Print Assumptions C51_limit_short_tag.
