(** HMAC over each hash: two messages with the same tag give a collision of the compression function. *)
From Coq Require Import NArith Arith List Bool Lia.
From Verif Require Import Lib.Word Lib.Res Lib.Bytes Lib.Hex Spec.Words Spec.Modes Spec.Hash Spec.Hashes Spec.Sha1 Spec.Md5 Spec.Sha2 Spec.Tiger Spec.Whirlpool Spec.Blake Spec.Keccak Spec.Collision Spec.MacColl
  Model.HashApi Model.MacApi Model.Hmac Model.Sha1 Model.Md5 Model.Sha2 Model.Tiger Model.Whirlpool Model.Blake Model.Keccak
  Proof.HashesP Proof.Sha2P Proof.TigerP Proof.WhirlpoolP Proof.HmacPubP Proof.HashCollP Proof.HaifaP Proof.SpongeCollP Proof.MacCollP.
Import ListNotations.
Local Open Scope N_scope.

(** [n] bytes of [d]: whenever two different messages, of lengths the hash takes, have the same tag, [coll] holds of the inner messages or of the outer ones *)
Definition hmac_to (d : hash) (r : N) (n : nat) (okm : nat -> Prop) (coll : list N -> list N -> Prop) : Prop :=
  forall key m m', bytes_ok key -> (0 < length key)%nat -> okm (length key) -> bytes_ok m -> bytes_ok m' ->
  okm (hs_blocksize d + length m)%nat -> okm (hs_blocksize d + length m')%nat -> m <> m' ->
  mac_all (hmac_desc d) r key m n = mac_all (hmac_desc d) r key m' n -> hmac_collides d r n coll key m m'.
Lemma hmac_to_of d r n cap okm coll : hash_use d r [] n cap okm -> (n <=? hs_blocksize d)%nat = true -> okm (hs_blocksize d + n)%nat -> collides d r n okm coll -> hmac_to d r n okm coll.
Proof.
  intros U Hn On Hc key m m' Bk Lk Ok Bm Bm' Om Om' Ne. apply Nat.leb_le in Hn.
  exact (hmac_both d r n cap okm key m m' U Bk Lk (or_intror (conj Hn Ok)) Bm Bm' Om Om' On Ne coll Hc).
Qed.
Definition md_coll (bs lb : nat) (first : N) (enc : nat -> N -> list N) (f : list N -> list N -> list N) (iv x x' : list N) : Prop :=
  collision_in f iv (blocks bs (md_pad bs lb first enc x)) (blocks bs (md_pad bs lb first enc x')).

Lemma small32 r : r <= 128 -> (rounds32 r <= 128)%nat.
Proof. intros H. apply (small_rounds rounds32 128); [vm_compute; reflexivity|exact H]. Qed.
Lemma small64 r : r <= 160 -> (rounds64 r <= 160)%nat.
Proof. intros H. apply (small_rounds rounds64 160); [vm_compute; reflexivity|exact H]. Qed.
Theorem hmac_to_sha256 r : r <= 128 -> hmac_to hash_sha2_256 r 32 (below (2 ^ 61)) (md_coll 64 8 0x80 be_bytes (sha2_compress f256 (rounds32 r)) iv256).
Proof.
  intros Hr. apply (hmac_to_of hash_sha2_256 r 32 32 (fun l => N.of_nat l < 2 ^ 61)); [constructor; [exact Hr|apply le_n]|exact eq_refl|exact eq_refl|].
  intros x x' B B' O O' Ne E. exact (sha2_256_collision r x x' (small32 r Hr) B B' O O' Ne E).
Qed.
Theorem hmac_to_sha512 r : r <= 160 -> hmac_to hash_sha2_512 r 64 (below (2 ^ 125)) (md_coll 128 16 0x80 be_bytes (sha2_compress f512 (rounds64 r)) iv512).
Proof.
  intros Hr. apply (hmac_to_of hash_sha2_512 r 64 64 (fun l => N.of_nat l < 2 ^ 125)); [constructor; [exact Hr|apply le_n]|exact eq_refl|exact eq_refl|].
  intros x x' B B' O O' Ne E. exact (sha2_512_collision r x x' (small64 r Hr) B B' O O' Ne E).
Qed.
Theorem hmac_to_sha1 : hmac_to hash_sha1 0 20 (below (2 ^ 61)) (md_coll 64 8 0x80 be_bytes sha1_compress sha1_h0).
Proof.
  apply (hmac_to_of hash_sha1 0 20 20 (fun l => N.of_nat l < 2 ^ 61)); [constructor; apply le_n|exact eq_refl|exact eq_refl|].
  intros x x' B B' O O' Ne E. exact (sha1_collision x x' B B' O O' Ne E).
Qed.
Theorem hmac_to_md5 r : hmac_to hash_md5 r 16 (below (2 ^ 61)) (md_coll 64 8 0x80 le_bytes md5_compress md5_h0).
Proof.
  apply (hmac_to_of hash_md5 r 16 16 (fun l => N.of_nat l < 2 ^ 61)); [constructor; apply le_n|exact eq_refl|exact eq_refl|].
  intros x x' B B' O O' Ne E. exact (md5_collision r x x' B B' O O' Ne E).
Qed.
Theorem hmac_to_tiger r : hmac_to hash_tiger r 24 (below (2 ^ 61)) (md_coll 64 8 0x01 le_bytes (tiger_compress (passes_of r)) tiger_h0).
Proof.
  apply (hmac_to_of hash_tiger r 24 24 (fun l => N.of_nat l < 2 ^ 61)); [constructor; apply le_n|exact eq_refl|exact eq_refl|].
  intros x x' B B' O O' Ne E. exact (tiger_collision r x x' B B' O O' Ne E).
Qed.
Theorem hmac_to_whirlpool r : r < 10 -> hmac_to hash_whirlpool r 64 (below (2 ^ 253)) (md_coll 64 32 0x80 be_bytes (whirlpool_compress (rounds_w r)) (repeat 0 64)).
Proof.
  intros Hr. apply (hmac_to_of hash_whirlpool r 64 64 (fun l => N.of_nat l < 2 ^ 253)); [constructor; [exact Hr|apply le_n]|exact eq_refl|exact eq_refl|].
  intros x x' B B' O O' Ne E. exact (whirlpool_collision r x x' Hr B B' O O' Ne E).
Qed.
Lemma to_eight a b (l : nat) : 8 * b = a -> N.of_nat l < b -> 8 * N.of_nat l < a. Proof. lia. Qed.
Lemma of_eight a b (l : nat) : 8 * b = a -> 8 * N.of_nat l < a -> N.of_nat l < b. Proof. lia. Qed.
Lemma hmac_to_weak d r n (okm okm' : nat -> Prop) coll : (forall l, okm' l -> okm l) -> hmac_to d r n okm coll -> hmac_to d r n okm' coll.
Proof. intros W H key m m' Bk Lk Ok Bm Bm' Om Om'. exact (H key m m' Bk Lk (W _ Ok) Bm Bm' (W _ Om) (W _ Om')). Qed.
Theorem hmac_to_blake256 r : hmac_to hash_blake256 r 32 (below (2 ^ 61)) (fun x x' => collision_in (blake_step fb256 (rounds_or 14 r) (salt_words 4 [])) iv256 (blake_inputs fb256 1 x) (blake_inputs fb256 1 x')).
Proof.
  apply (hmac_to_weak _ _ _ (fun l => 8 * N.of_nat l < 2 ^ 64)); [intros l; exact (to_eight (2 ^ 64) (2 ^ 61) l eq_refl)|].
  apply (hmac_to_of hash_blake256 r 32 32); [constructor; [constructor|apply Nat.le_0_l|split; [apply Nat.leb_le; exact eq_refl|apply le_n]]|exact eq_refl|exact eq_refl|].
  intros x x' B B' O O' Ne E. exact (blake256_collides r [] x x' (Forall_nil _) (Nat.le_0_l _) B B' (of_eight (2 ^ 64) (2 ^ 61) _ eq_refl O) (of_eight (2 ^ 64) (2 ^ 61) _ eq_refl O') Ne E).
Qed.
Theorem hmac_to_blake512 r : hmac_to hash_blake512 r 64 (below (2 ^ 125)) (fun x x' => collision_in (blake_step fb512 (rounds_or 16 r) (salt_words 8 [])) iv512 (blake_inputs fb512 1 x) (blake_inputs fb512 1 x')).
Proof.
  apply (hmac_to_weak _ _ _ (fun l => 8 * N.of_nat l < 2 ^ 128)); [intros l; exact (to_eight (2 ^ 128) (2 ^ 125) l eq_refl)|].
  apply (hmac_to_of hash_blake512 r 64 64); [constructor; [constructor|apply Nat.le_0_l|split; [apply Nat.leb_le; exact eq_refl|apply le_n]]|exact eq_refl|exact eq_refl|].
  intros x x' B B' O O' Ne E. exact (blake512_collides r [] x x' (Forall_nil _) (Nat.le_0_l _) B B' (of_eight (2 ^ 128) (2 ^ 125) _ eq_refl O) (of_eight (2 ^ 128) (2 ^ 125) _ eq_refl O') Ne E).
Qed.
Theorem hmac_to_blake2s r : hmac_to hash_blake2s r 32 (below (2 ^ 64)) (fun x x' => collision_in (blake2_step fb2s (rounds_or 10 r) iv256) (blake2_start fb2s iv256 [] 32) (blake2_inputs fb2s x) (blake2_inputs fb2s x')).
Proof.
  apply (hmac_to_of hash_blake2s r 32 32 (fun l => N.of_nat l < 2 ^ 64)); [constructor; [constructor|apply Nat.le_0_l|apply le_n]|exact eq_refl|exact eq_refl|].
  intros x x' B B' O O' Ne E. exact (blake2s_collides r [] x x' (Forall_nil _) (Nat.le_0_l _) B B' O O' Ne E).
Qed.
Theorem hmac_to_blake2b r : hmac_to hash_blake2b r 64 (below (2 ^ 128)) (fun x x' => collision_in (blake2_step fb2b (rounds_or 12 r) iv512) (blake2_start fb2b iv512 [] 64) (blake2_inputs fb2b x) (blake2_inputs fb2b x')).
Proof.
  apply (hmac_to_of hash_blake2b r 64 64 (fun l => N.of_nat l < 2 ^ 128)); [constructor; [constructor|apply Nat.le_0_l|apply le_n]|exact eq_refl|exact eq_refl|].
  intros x x' B B' O O' Ne E. exact (blake2b_collides r [] x x' (Forall_nil _) (Nat.le_0_l _) B B' O O' Ne E).
Qed.
Theorem hmac_to_sha3 r n : r <= 48 -> (n <= 64)%nat -> hmac_to hash_sha3 r n (fun _ => True) (sponge_collision (keccak_bytes 8 (round_constant 64) (rounds_or 24 r)) 200 (200 - 2 * n) n 6).
Proof.
  intros Hr Hn. apply (hmac_to_of hash_sha3 r n 64); [now constructor|apply Nat.leb_le; change (hs_blocksize hash_sha3) with 200%nat; lia|exact I|].
  intros x x' B B' O O' Ne E. exact (sha3_equal r n x x' Hr Hn B B' Ne E).
Qed.
