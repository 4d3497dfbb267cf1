(** seed() of lib/random.c. *)
From Coq Require Import NArith ZArith Arith List Bool Lia.
From Verif Require Import Lib.Word Lib.Res Lib.Bytes Lib.XorBytes Spec.Words Spec.Hash Spec.Hashes Spec.Hmac Spec.Blake Spec.Kdf Spec.ScryptOver Model.HashApi Model.MacApi Model.Hmac Model.Blake Model.Kdf Model.Random
  Lib.WordsP Lib.Lists Proof.DigestsP Proof.Blake2P Proof.Pbkdf2P Proof.Pbkdf2PubP Proof.ScryptPubP Proof.ScryptOverP.
Import ListNotations.
Local Open Scope nat_scope.

Lemma blake2s_is dd rounds salt n : is_digest 32 (blake2s_r dd rounds salt n).
Proof. intros m _. unfold blake2s_r. split; [apply bytes_le_string|]. rewrite length_le_string, blake2_chain_len; [lia|reflexivity|now apply blake2_start_len]. Qed.
Local Definition H1 := blake2s_r (extra_block 64) 10 [] 32.
Local Definition H2 := blake2s [] 32.
Theorem pbkdf2_blake2s : pbkdf2_hmac_ok hash_blake2s 32 64 (2 ^ 64) H1.
Proof. apply pbkdf2_hmac; [exact (blake2s_computes 0 [] 32 (Forall_nil _) ltac:(cbn; lia) ltac:(lia))|apply blake2s_is|lia|reflexivity|reflexivity|reflexivity]. Qed.
Lemma blake2s_same l : length l mod 64 <> 0 -> H1 l = H2 l.
Proof. intros H. unfold H1, H2, blake2s, blake2s_r. rewrite extra_block_rfc by (lia || now right). reflexivity. Qed.
Lemma hmac_same e m : length e <= 64 -> length m mod 64 <> 0 -> hmac 64 H1 e m = hmac 64 H2 e m.
Proof.
  intros He Hm. unfold hmac, hmac_key. destruct (Nat.leb_spec (length e) 64) as [_|X]; [|lia].
  assert (L : forall x, length (pad_key 64 x e) = 64).
  { intros x. unfold pad_key. rewrite length_xor, repeat_length. unfold zero_pad. rewrite app_length, repeat_length. lia. }
  rewrite (blake2s_same (pad_key 64 ipad e ++ m)).
  - apply blake2s_same. rewrite app_length, L. unfold H2, blake2s, blake2s_r. rewrite length_le_string, blake2_chain_len; [|reflexivity|now apply blake2_start_len]. cbn. discriminate.
  - rewrite app_length, L. replace (64 + length m) with (length m + 1 * 64) by lia. rewrite Nat.mod_add by lia. exact Hm.
Qed.
Lemma key_same e salt len : length e <= 64 -> (length salt + 4) mod 64 <> 0 -> pbkdf2_key (hmac 64 H1 e) 32 1 salt len = pbkdf2_key (hmac 64 H2 e) 32 1 salt len.
Proof.
  intros He Hs. unfold pbkdf2_key. f_equal. f_equal. apply map_ext. intros i. unfold pb_block. change (N.to_nat (1 - 1)) with 0. cbn [pb_sum]. apply hmac_same; [exact He|]. now rewrite app_length, length_be_bytes.
Qed.
Lemma over_length a e r bits b : 0 < r -> a <> e -> (bits <= 64)%N -> bytes_ok b -> length b = 128 * r -> length (over_mix a e r (2 ^ bits) b) = 128 * r /\ bytes_ok (over_mix a e r (2 ^ bits) b).
Proof.
  intros Hr Hae Hb Bb Lb. destruct (smix_over r a e bits b (repeat 0%N (32 * r * Nat.max (N.to_nat (2 ^ bits)) (Nat.max (S a) (S e)))) Hr Hae) as (w & _ & _ & L); try assumption. rewrite repeat_length. apply le_n.
Qed.
Lemma over_same bits e salt len : (bits <= 64)%N -> bytes_ok e -> length e <= 64 -> bytes_ok salt -> (length salt + 4) mod 64 <> 0 ->
  over_key 1 2 (hmac 64 H1 e) 32 (2 ^ bits) 8 1 salt len = over_key 1 2 (hmac 64 H2 e) 32 (2 ^ bits) 8 1 salt len.
Proof.
  intros Hb Be He Bs Hs. unfold over_key. cbv zeta. rewrite (key_same e salt (128 * 8 * 1) He Hs). cbn [seq map concat]. apply key_same; [exact He|]. rewrite app_nil_r.
  destruct (key_ok 32 (hmac 64 H2 e) 1 salt (128 * 8 * 1) (hmac_is 32 64 H2 e (blake2s_is _ _ _ _) Be) ltac:(lia) Bs) as [L B].
  set (b := pbkdf2_key (hmac 64 H2 e) 32 1 salt (128 * 8 * 1)) in *. clearbody b.
  assert (Bz : bytes_ok (slice (128 * 8 * 0) (128 * 8) b)) by (now apply bytes_slice). assert (Lz : length (slice (128 * 8 * 0) (128 * 8) b) = 128 * 8) by (apply length_slice; rewrite L; lia).
  rewrite (proj1 (over_length 1 2 8 bits _ ltac:(lia) ltac:(lia) Hb Bz Lz)). clear. vm_compute. discriminate.
Qed.
Lemma scrypt_seed bits e salt junk : (bits <= 64)%N -> bytes_ok e -> 0 < length e <= 64 -> bytes_ok salt -> length salt <= 32 -> length junk = scrypt_room (2 ^ bits) 8 ->
  scrypt (hmac_desc hash_blake2s) 0 (2 ^ bits) 8 1 e salt 32 junk = Ok (over_key 1 2 (hmac 64 H2 e) 32 (2 ^ bits) 8 1 salt 32).
Proof.
  intros Hb Be Le Bs Ls Lj. rewrite <- (over_same bits e salt 32 Hb Be (proj2 Le) Bs) by (rewrite Nat.mod_small; lia).
  apply (scrypt_exact hash_blake2s 32 64 (2 ^ 64)); try assumption; try lia; [exact pbkdf2_blake2s|apply blake2s_is|]. vm_compute. reflexivity.
Qed.
(** with any number of blocks *)
Lemma seed_any bits e1 e2 junk1 junk2 : (bits <= 64)%N -> bytes_ok e1 -> bytes_ok e2 -> 0 < length e1 <= 64 -> 0 < length e2 <= 64 -> length junk1 = scrypt_room (2 ^ bits) 8 -> length junk2 = scrypt_room (2 ^ bits) 8 ->
  let f e salt := over_key 1 2 (hmac 64 (blake2s [] 32) e) 32 (2 ^ bits) 8 1 salt 32 in
  (let* out := scrypt (hmac_desc hash_blake2s) 0 (2 ^ bits) 8 1 e1 [] 32 junk1 in scrypt (hmac_desc hash_blake2s) 0 (2 ^ bits) 8 1 e2 out 32 junk2) = Ok (f e2 (f e1 [])) /\ length (f e2 (f e1 [])) = 32 /\ bytes_ok (f e2 (f e1 [])).
Proof.
  intros Hb B1 B2 L1 L2 J1 J2 f. fold H2 in f.
  assert (O : forall e salt, bytes_ok e -> bytes_ok salt -> length (f e salt) = 32 /\ bytes_ok (f e salt)).
  { intros e salt Be Bs. unfold f, over_key. cbv zeta. apply key_ok; [apply hmac_is; [apply blake2s_is|exact Be]|lia|]. cbn [seq map concat]. rewrite app_nil_r.
    destruct (key_ok 32 (hmac 64 H2 e) 1 salt (128 * 8 * 1) (hmac_is 32 64 H2 e (blake2s_is _ _ _ _) Be) ltac:(lia) Bs) as [L B].
    set (b := pbkdf2_key (hmac 64 H2 e) 32 1 salt (128 * 8 * 1)) in *. clearbody b.
    assert (Bz : bytes_ok (slice (128 * 8 * 0) (128 * 8) b)) by (now apply bytes_slice). assert (Lz : length (slice (128 * 8 * 0) (128 * 8) b) = 128 * 8) by (apply length_slice; rewrite L; lia).
    exact (proj2 (over_length 1 2 8 bits _ ltac:(lia) ltac:(lia) Hb Bz Lz)). }
  destruct (O e1 [] B1 (Forall_nil _)) as [Lo Bo]. split; [|now apply O].
  assert (F : forall e salt, over_key 1 2 (hmac 64 H2 e) 32 (2 ^ bits) 8 1 salt 32 = f e salt) by (intros; exact eq_refl). clearbody f.
  rewrite (scrypt_seed bits e1 [] junk1 Hb B1 L1 (Forall_nil _) ltac:(cbn; lia) J1), F. cbn [bind]. rewrite (scrypt_seed bits e2 _ junk2 Hb B2 L2 Bo ltac:(lia) J2), F. exact eq_refl.
Qed.
Theorem seed_ok e1 e2 junk1 junk2 : bytes_ok e1 -> bytes_ok e2 -> 0 < length e1 <= 64 -> 0 < length e2 <= 64 -> length junk1 = scrypt_room (2 ^ 20) 8 -> length junk2 = scrypt_room (2 ^ 20) 8 ->
  let f e salt := over_key 1 2 (hmac 64 (blake2s [] 32) e) 32 (2 ^ 20) 8 1 salt 32 in
  rn_seed e1 e2 junk1 junk2 32 = Ok (f e2 (f e1 [])) /\ length (f e2 (f e1 [])) = 32 /\ bytes_ok (f e2 (f e1 [])).
Proof.
  intros B1 B2 L1 L2 J1 J2. pose proof (seed_any 20 e1 e2 junk1 junk2 ltac:(lia) B1 B2 L1 L2 J1 J2) as G. unfold rn_seed. assert (E : 1048576%N = (2 ^ 20)%N) by reflexivity. rewrite E. exact G.
Qed.
