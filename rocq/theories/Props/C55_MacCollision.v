(** C55: two messages with the same tag.  HMAC: the hash collides, and in it the compression function ([hmac_collides], Spec/MacColl.v: on the inner
    messages or on the outer ones).  OMAC and XCBC: the tags of messages of whole blocks agree exactly when they agree with anything put after both. *)
From Coq Require Import String NArith Arith List Bool.
From Verif Require Import Lib.Res Lib.Bytes Lib.Hex Spec.Words Spec.Block Spec.Cipher Spec.Modes Spec.Hash Spec.Hashes Spec.Sha1 Spec.Md5 Spec.Sha2 Spec.Tiger Spec.Whirlpool Spec.Blake Spec.Keccak
  Spec.Collision Spec.CbcMac Spec.Mac Spec.Hmac Spec.MacColl Model.BlockApi Model.HashApi Model.MacApi Model.Hmac Model.Omac Model.Ciphers
  Model.Sha1 Model.Md5 Model.Sha2 Model.Tiger Model.Whirlpool Model.Blake Model.Keccak
  Proof.CiphersP Proof.CbcMacPubP Proof.Sha2P Proof.TigerP Proof.WhirlpoolP Proof.HashCollP Proof.HaifaP Proof.MacCollP Proof.MacColl2P.
Import ListNotations.
Local Open Scope N_scope.
Local Notation length := List.length.
Local Notation concat := List.concat.

(** every hash with proved digests, every length of the tag: same tags are exactly collisions of the hash *)
Theorem C55_hmac d r n cap okm key m m' : hash_use d r [] n cap okm -> bytes_ok key -> (0 < length key)%nat -> (length key <= hs_blocksize d \/ n <= hs_blocksize d /\ okm (length key))%nat ->
  bytes_ok m -> bytes_ok m' -> okm (hs_blocksize d + length m)%nat -> okm (hs_blocksize d + length m')%nat -> okm (hs_blocksize d + n)%nat -> m <> m' ->
  (mac_all (hmac_desc d) r key m n = mac_all (hmac_desc d) r key m' n <-> hmac_collides d r n (same_digest d r n) key m m').
Proof. exact (hmac_iff d r n cap okm key m m'). Qed.
(** full tags: down to the compression function.  [hmac_to d r n okm coll] (Proof/MacColl2P.v): for all keys and all pairs of different messages whose lengths the hash takes,
    the same tag of [n] bytes gives [hmac_collides d r n coll key m m']. *)
Theorem C55_hmac_sha256 r : r <= 128 -> hmac_to hash_sha2_256 r 32 (below (2 ^ 61)) (md_coll 64 8 0x80 be_bytes (sha2_compress f256 (rounds32 r)) iv256).
Proof. exact (hmac_to_sha256 r). Qed.
Theorem C55_hmac_sha512 r : r <= 160 -> hmac_to hash_sha2_512 r 64 (below (2 ^ 125)) (md_coll 128 16 0x80 be_bytes (sha2_compress f512 (rounds64 r)) iv512).
Proof. exact (hmac_to_sha512 r). Qed.
Theorem C55_hmac_sha1 : hmac_to hash_sha1 0 20 (below (2 ^ 61)) (md_coll 64 8 0x80 be_bytes sha1_compress sha1_h0).
Proof. exact hmac_to_sha1. Qed.
Theorem C55_hmac_md5 r : hmac_to hash_md5 r 16 (below (2 ^ 61)) (md_coll 64 8 0x80 le_bytes md5_compress md5_h0).
Proof. exact (hmac_to_md5 r). Qed.
Theorem C55_hmac_tiger r : hmac_to hash_tiger r 24 (below (2 ^ 61)) (md_coll 64 8 0x01 le_bytes (tiger_compress (passes_of r)) tiger_h0).
Proof. exact (hmac_to_tiger r). Qed.
Theorem C55_hmac_whirlpool r : r < 10 -> hmac_to hash_whirlpool r 64 (below (2 ^ 253)) (md_coll 64 32 0x80 be_bytes (whirlpool_compress (rounds_w r)) (repeat 0 64)).
Proof. exact (hmac_to_whirlpool r). Qed.
Theorem C55_hmac_blake256 r : hmac_to hash_blake256 r 32 (below (2 ^ 61)) (fun x x' => collision_in (blake_step fb256 (rounds_or 14 r) (salt_words 4 [])) iv256 (blake_inputs fb256 1 x) (blake_inputs fb256 1 x')).
Proof. exact (hmac_to_blake256 r). Qed.
Theorem C55_hmac_blake512 r : hmac_to hash_blake512 r 64 (below (2 ^ 125)) (fun x x' => collision_in (blake_step fb512 (rounds_or 16 r) (salt_words 8 [])) iv512 (blake_inputs fb512 1 x) (blake_inputs fb512 1 x')).
Proof. exact (hmac_to_blake512 r). Qed.
Theorem C55_hmac_blake2s r : hmac_to hash_blake2s r 32 (below (2 ^ 64)) (fun x x' => collision_in (blake2_step fb2s (rounds_or 10 r) iv256) (blake2_start fb2s iv256 [] 32) (blake2_inputs fb2s x) (blake2_inputs fb2s x')).
Proof. exact (hmac_to_blake2s r). Qed.
Theorem C55_hmac_blake2b r : hmac_to hash_blake2b r 64 (below (2 ^ 128)) (fun x x' => collision_in (blake2_step fb2b (rounds_or 12 r) iv512) (blake2_start fb2b iv512 [] 64) (blake2_inputs fb2b x) (blake2_inputs fb2b x')).
Proof. exact (hmac_to_blake2b r). Qed.
Theorem C55_hmac_sha3 r n : r <= 48 -> (n <= 64)%nat -> hmac_to hash_sha3 r n (fun _ => True) (sponge_collision (keccak_bytes 8 (round_constant 64) (rounds_or 24 r)) 200 (200 - 2 * n) n 6).
Proof. exact (hmac_to_sha3 r n). Qed.

(** CBC MACs over every cipher object that works, with any rounds; new objects and recreated ones *)
Theorem C55_omac c r key n b R : (0 < length key)%nat -> bc_create c r key = Ok b -> works c b -> cmac_poly (bc_bs c) = Some R -> (n <= bc_bs c)%nat ->
  tag_extends (omac_desc c) (mac_create (omac_desc c) r key n) (bc_bs c).
Proof. exact (omac_extend c r key n b R). Qed.
Theorem C55_omac_recreate c m r key n b R : (0 < length key)%nat -> bc_recreate c (om_block c m) r key = Ok b -> works c b -> cmac_poly (bc_bs c) = Some R ->
  tag_extends (omac_desc c) (mac_recreate (omac_desc c) m r key n) (bc_bs c).
Proof. exact (omac_extend_re c m r key n b R). Qed.
Theorem C55_omac_ciphers : Forall (fun c => forall key n, key_ok (bc_maxkey c) key -> (n <= bc_bs c)%nat -> tag_extends (omac_desc c) (mac_create (omac_desc c) 0 key n) (bc_bs c)) sound_ciphers.
Proof. exact omac_extend_ciphers. Qed.
Theorem C55_xcbc c r key n s s1 : (0 < length key)%nat -> (bc_bs c < 256)%nat -> bc_create c r key = Ok s -> works c s ->
  bc_recreate c s r (fn (bc_enc c s) (repeat 1 (bc_bs c))) = Ok s1 -> works c s1 -> (n <= bc_bs c)%nat ->
  tag_extends (xcbc_desc c) (mac_create (xcbc_desc c) r key n) (bc_bs c).
Proof. exact (xcbc_extend c r key n s s1). Qed.
Print Assumptions C55_hmac. Print Assumptions C55_hmac_sha256. Print Assumptions C55_hmac_sha512. Print Assumptions C55_hmac_sha1. Print Assumptions C55_hmac_md5.
Print Assumptions C55_hmac_tiger. Print Assumptions C55_hmac_whirlpool. Print Assumptions C55_hmac_blake256. Print Assumptions C55_hmac_blake512. Print Assumptions C55_hmac_blake2s.
Print Assumptions C55_hmac_blake2b. Print Assumptions C55_hmac_sha3. Print Assumptions C55_omac. Print Assumptions C55_omac_recreate. Print Assumptions C55_omac_ciphers. Print Assumptions C55_xcbc.

(** tags of one byte: two messages with the same tag, so the premises of the first theorem and its right side can be met *)
Example C55_pair : mac_all (hmac_desc hash_md5) 0 [1; 2; 3] [16] 1 = Ok [5] /\ mac_all (hmac_desc hash_md5) 0 [1; 2; 3] [18] 1 = Ok [5] /\
  hmac_collides hash_md5 0 1 (same_digest hash_md5 0 1) [1; 2; 3] [16] [18].
Proof.
  assert (A : mac_all (hmac_desc hash_md5) 0 [1; 2; 3] [16] 1 = Ok [5]) by (vm_compute; reflexivity). assert (B : mac_all (hmac_desc hash_md5) 0 [1; 2; 3] [18] 1 = Ok [5]) by (vm_compute; reflexivity).
  split; [exact A|]. split; [exact B|]. apply (C55_hmac hash_md5 0 1 16 (fun l => N.of_nat l < 2 ^ 61) [1; 2; 3] [16] [18]); [..|rewrite A, B; reflexivity].
  - constructor. apply Nat.leb_le. reflexivity.
  - repeat constructor.
  - apply Nat.ltb_lt. reflexivity.
  - left. apply Nat.leb_le. reflexivity.
  - repeat constructor.
  - repeat constructor.
  - reflexivity.
  - reflexivity.
  - reflexivity.
  - discriminate.
Qed.
(** OMAC with TEA: two messages of two blocks with the same tag (made with the key), and the same tags again with 5 bytes put after them *)
Definition twin (key b0 b0' b1 : list N) : list N :=
  match bc_create tea_desc 0 key with Ok s => b0' ++ xor_bytes b1 (xor_bytes (fn (bc_enc tea_desc s) b0) (fn (bc_enc tea_desc s) b0')) | Err _ => [] end.
Definition twin_tags (key Z : list N) : res (list N * list N) :=
  let o := mac_create (omac_desc tea_desc) 0 key 8 in
  let* t := tag_of (omac_desc tea_desc) o [repeat 7 16 ++ Z] [8%nat] in let* u := tag_of (omac_desc tea_desc) o [twin key (repeat 7 8) (repeat 8 8) (repeat 7 8) ++ Z] [8%nat] in Ok (t, u).
Example C55_twins : (match twin_tags [1; 2; 3] [], twin_tags [1; 2; 3] [9; 8; 7; 6; 5] with
  | Ok (t, u), Ok (v, w) => (be_val t =? be_val u) && (be_val v =? be_val w) && negb (be_val t =? be_val v) && (length v =? 8)%nat | _, _ => false end &&
  (length (twin [1; 2; 3]%N (repeat 7%N 8) (repeat 8%N 8) (repeat 7%N 8)) =? 16)%nat)%bool = true.
Proof. vm_compute. reflexivity. Qed.
