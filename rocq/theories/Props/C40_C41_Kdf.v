(** C40 PBKDF2 and C41 scrypt.  [pbkdf2_key prf h c salt len], [scrypt_key prf h n r p salt len] (Spec/Kdf.v) are RFC 8018 and RFC 7914. *)
From Coq Require Import String NArith Arith List Bool.
From Verif Require Import Lib.Res Lib.Bytes Lib.Hex Spec.Words Spec.Block Spec.Cipher Spec.CbcMac Spec.Hmac Spec.Mac Spec.Hash Spec.Hashes Spec.Kdf Spec.ScryptOver Spec.Sha1 Spec.Sha2 Spec.Md5
  Model.BlockApi Model.HashApi Model.MacApi Model.Omac Model.Hmac Model.Sha1 Model.Sha2 Model.Md5 Model.Ciphers Model.Blake Model.Kdf Spec.Blake Proof.CbcMacP Proof.Pbkdf2P Proof.Pbkdf2PubP Proof.ScryptP Proof.ScryptPubP Proof.ScryptOverP Proof.RandSeedP.
Import ListNotations.
Local Open Scope N_scope.
Local Notation length := List.length.
Local Notation concat := List.concat.

(** C40 over every MAC: tags of [x] bytes, the length of the output or a full tag.  [mac_steady] (Spec/Kdf.v): the MAC computes [T] for
    this password, also when the object is used again. *)
Theorem C40_every_mac d r iter pass salt len okl okm T : let x := Nat.min len (mc_maxtag d) in
  mac_steady d r pass x okl okm T -> okl [x] -> digests x okm T -> bytes_ok salt -> okm (length salt + 4)%nat -> (1 < iter -> okm x) -> 0 < iter ->
  (0 < mc_maxtag d)%nat -> N.of_nat (pb_blocks x len) < 2 ^ 32 ->
  pbkdf2 d r iter pass salt len = Ok (pbkdf2_key (fun m => firstn x (T m)) x iter salt len).
Proof. exact (pbkdf2_ok d r iter pass salt len okl okm T). Qed.
(** PBKDF2-HMAC for outputs of at least one digest *)
Theorem C40_sha256 iter pass salt len : bytes_ok pass -> (0 < length pass)%nat -> N.of_nat (length pass) < 2 ^ 61 -> bytes_ok salt -> N.of_nat (64 + length salt + 4) < 2 ^ 61 -> 0 < iter ->
  (32 <= len)%nat -> N.of_nat (pb_blocks 32 len) < 2 ^ 32 -> pbkdf2 (hmac_desc hash_sha2_256) 0 iter pass salt len = Ok (pbkdf2_key (hmac 64 sha256 pass) 32 iter salt len).
Proof. exact (pbkdf2_sha256 iter pass salt len). Qed.
Theorem C40_sha512 iter pass salt len : bytes_ok pass -> (0 < length pass)%nat -> N.of_nat (length pass) < 2 ^ 125 -> bytes_ok salt -> N.of_nat (128 + length salt + 4) < 2 ^ 125 -> 0 < iter ->
  (64 <= len)%nat -> N.of_nat (pb_blocks 64 len) < 2 ^ 32 -> pbkdf2 (hmac_desc hash_sha2_512) 0 iter pass salt len = Ok (pbkdf2_key (hmac 128 sha512 pass) 64 iter salt len).
Proof. exact (pbkdf2_sha512 iter pass salt len). Qed.
Theorem C40_sha1 iter pass salt len : bytes_ok pass -> (0 < length pass)%nat -> N.of_nat (length pass) < 2 ^ 61 -> bytes_ok salt -> N.of_nat (64 + length salt + 4) < 2 ^ 61 -> 0 < iter ->
  (20 <= len)%nat -> N.of_nat (pb_blocks 20 len) < 2 ^ 32 -> pbkdf2 (hmac_desc hash_sha1) 0 iter pass salt len = Ok (pbkdf2_key (hmac 64 sha1 pass) 20 iter salt len).
Proof. exact (pbkdf2_sha1 iter pass salt len). Qed.
Theorem C40_md5 iter pass salt len : bytes_ok pass -> (0 < length pass)%nat -> N.of_nat (length pass) < 2 ^ 61 -> bytes_ok salt -> N.of_nat (64 + length salt + 4) < 2 ^ 61 -> 0 < iter ->
  (16 <= len)%nat -> N.of_nat (pb_blocks 16 len) < 2 ^ 32 -> pbkdf2 (hmac_desc hash_md5) 0 iter pass salt len = Ok (pbkdf2_key (hmac 64 md5 pass) 16 iter salt len).
Proof. exact (pbkdf2_md5 iter pass salt len). Qed.
(** ... and the MACs from block ciphers are steady *)
Theorem C40_omac c r key n b F R : Block.key_ok (bc_maxkey c) key -> bc_create c r key = Ok b -> enc_fn c b F -> recreate_ok c b r key -> cmac_poly (bc_bs c) = Some R -> (n <= bc_bs c)%nat ->
  mac_steady (omac_desc c) r key n (at_most (bc_bs c)) (fun _ => True) (cmac (bc_bs c) F R).
Proof. exact (omac_steady c r key n b F R). Qed.
(** Shorter outputs are prefixes of longer ones. *)
Theorem C40_prefix p h c salt a b : (0 < h)%nat -> (a <= b)%nat -> (forall i, length (pb_block p c salt i) = h) -> pbkdf2_key p h c salt a = firstn a (pbkdf2_key p h c salt b).
Proof. exact (pb_prefix p h c salt a b). Qed.
Print Assumptions C40_every_mac. Print Assumptions C40_sha256. Print Assumptions C40_sha512. Print Assumptions C40_sha1. Print Assumptions C40_md5. Print Assumptions C40_omac. Print Assumptions C40_prefix.
Definition pw : list N := ascii_bytes "password".
Example C40_vectors : pbkdf2 (hmac_desc hash_sha1) 0 2 pw (ascii_bytes "salt") 20 = Ok (hex "ea6c014dc72d6f8ccd1ed92ace1d41f0d8de8957") /\
  pbkdf2 (hmac_desc hash_sha2_256) 0 2 pw (ascii_bytes "salt") 40 = Ok (hex "ae4d0c95af6b46d32d0adff928f06dd02a303f8ef3c251dfd6e2d85a95474c43830651afcb5c862f") /\
  pbkdf2_key (hmac 64 sha1 pw) 20 2 (ascii_bytes "salt") 20 = hex "ea6c014dc72d6f8ccd1ed92ace1d41f0d8de8957".
Proof. split; [vm_compute; reflexivity|]. split; vm_compute; reflexivity. Qed.

(** What fails: shorter outputs, over HMAC even with one iteration, over OMAC with two; the empty password. *)
Definition differ (x y : res (list N)) : bool := match x, y with Ok a, Ok b => negb (be_val a =? be_val b) | _, _ => false end.
Lemma differ_ok x y : differ x y = true -> exists a b, x = Ok a /\ y = Ok b /\ a <> b.
Proof. destruct x as [a|], y as [b|]; try discriminate. intros H. exists a, b. split; [reflexivity|]. split; [reflexivity|]. intros ->. cbn [differ] in H. now rewrite N.eqb_refl in H. Qed.
Theorem C40_short_refuted : exists d iter pass salt a b, pbkdf2 d 0 iter pass salt 16 = Ok a /\ (let* k := pbkdf2 d 0 iter pass salt 32 in Ok (firstn 16 k)) = Ok b /\ a <> b.
Proof. exists (hmac_desc hash_sha2_256), 1, [1], []. apply differ_ok. vm_compute. reflexivity. Qed.
Theorem C40_omac_refuted : exists iter pass salt a b, pbkdf2 (omac_desc tea_desc) 0 iter pass salt 4 = Ok a /\ (let* k := pbkdf2 (omac_desc tea_desc) 0 iter pass salt 8 in Ok (firstn 4 k)) = Ok b /\ a <> b.
Proof. exists 2, [1], []. apply differ_ok. vm_compute. reflexivity. Qed.
Theorem C40_empty_refuted d r iter salt len : pbkdf2 d r iter [] salt len = Err AssertFail.
Proof. unfold pbkdf2. destruct (iter =? 0); reflexivity. Qed.
Print Assumptions C40_short_refuted. Print Assumptions C40_omac_refuted. Print Assumptions C40_empty_refuted.

(** C41.  scrypt with PBKDF2-HMAC-SHA-256, if the saved blocks 1 and 2 are not used: [scrypt_draws] are the numbers of the blocks. *)
Theorem C41_scrypt bits r p pass salt len junk :
  bytes_ok pass -> (0 < length pass)%nat -> N.of_nat (length pass) < 2 ^ 61 -> bytes_ok salt -> N.of_nat (length salt) < 2 ^ 60 ->
  (0 < r)%nat -> (0 < p)%nat -> bits <= 64 -> 128 * N.of_nat r * N.of_nat p < 2 ^ 32 -> (32 <= len)%nat -> N.of_nat (pb_blocks 32 len) < 2 ^ 32 -> length junk = scrypt_room (2 ^ bits) r ->
  (forall j, In j (scrypt_draws (hmac 64 sha256 pass) 32 (2 ^ bits) r p salt) -> j <> 1%nat /\ j <> 2%nat) ->
  scrypt (hmac_desc hash_sha2_256) 0 (2 ^ bits) r p pass salt len junk = Ok (scrypt_key (hmac 64 sha256 pass) 32 (2 ^ bits) r p salt len).
Proof. exact (scrypt_sha256 bits r p pass salt len junk). Qed.
(** Nothing else is wrong: with the working areas behind the saved blocks it is RFC 7914 always; and over every HMAC. *)
Theorem C41_repaired bits r p pass salt len junk :
  bytes_ok pass -> (0 < length pass)%nat -> N.of_nat (length pass) < 2 ^ 61 -> bytes_ok salt -> N.of_nat (length salt) < 2 ^ 60 ->
  (0 < r)%nat -> (0 < p)%nat -> bits <= 64 -> 128 * N.of_nat r * N.of_nat p < 2 ^ 32 -> (32 <= len)%nat -> N.of_nat (pb_blocks 32 len) < 2 ^ 32 -> length junk = scrypt_room (2 ^ bits) r ->
  scrypt_at (32 * r * N.to_nat (2 ^ bits)) (32 * r * S (N.to_nat (2 ^ bits))) (hmac_desc hash_sha2_256) 0 (2 ^ bits) r p pass salt len junk =
  Ok (scrypt_key (hmac 64 sha256 pass) 32 (2 ^ bits) r p salt len).
Proof. exact (scrypt_repaired bits r p pass salt len junk). Qed.
Theorem C41_every_hmac d k B lim H a e bits r p pass salt len junk : pbkdf2_hmac_ok d k B lim H -> is_digest k H -> (0 < k <= 128)%nat ->
  bytes_ok pass -> (0 < length pass)%nat -> N.of_nat (length pass) < lim -> bytes_ok salt -> N.of_nat (B + length salt + 4) < lim -> N.of_nat (B + 128 * r * p + 4) < lim ->
  (0 < r)%nat -> (0 < p)%nat -> bits <= 64 -> 128 * N.of_nat r * N.of_nat p < 2 ^ 32 -> (k <= len)%nat -> N.of_nat (pb_blocks k len) < 2 ^ 32 ->
  a <> e -> (32 * r * Nat.max (N.to_nat (2 ^ bits)) (Nat.max (S a) (S e)) <= length junk)%nat ->
  (forall j, In j (scrypt_draws (hmac B H pass) k (2 ^ bits) r p salt) -> j <> a /\ j <> e) ->
  scrypt_at (32 * r * a) (32 * r * e) (hmac_desc d) 0 (2 ^ bits) r p pass salt len junk = Ok (scrypt_key (hmac B H pass) k (2 ^ bits) r p salt len).
Proof. exact (scrypt_at_ok d k B lim H a e bits r p pass salt len junk). Qed.
(** What the code computes in every case ([over_key], Spec/ScryptOver.v): the block 1 is the block being worked on, and block 2 the blocks of 64 bytes
    before the last ordering.  No input makes it read or write outside its memory. *)
Theorem C41_exact d k B lim H bits r p pass salt len junk : pbkdf2_hmac_ok d k B lim H -> is_digest k H -> (0 < k <= 128)%nat ->
  bytes_ok pass -> (0 < length pass)%nat -> N.of_nat (length pass) < lim -> bytes_ok salt -> N.of_nat (B + length salt + 4) < lim -> N.of_nat (B + 128 * r * p + 4) < lim ->
  (0 < r)%nat -> (0 < p)%nat -> bits <= 64 -> 128 * N.of_nat r * N.of_nat p < 2 ^ 32 -> (k <= len)%nat -> N.of_nat (pb_blocks k len) < 2 ^ 32 -> length junk = scrypt_room (2 ^ bits) r ->
  scrypt (hmac_desc d) 0 (2 ^ bits) r p pass salt len junk = Ok (over_key 1 2 (hmac B H pass) k (2 ^ bits) r p salt len).
Proof. exact (scrypt_exact d k B lim H bits r p pass salt len junk). Qed.
Theorem C41_hashes : pbkdf2_hmac_ok hash_sha2_256 32 64 (2 ^ 61) sha256 /\ pbkdf2_hmac_ok hash_sha2_512 64 128 (2 ^ 125) sha512 /\ pbkdf2_hmac_ok hash_sha1 20 64 (2 ^ 61) sha1 /\
  pbkdf2_hmac_ok hash_md5 16 64 (2 ^ 61) md5 /\ pbkdf2_hmac_ok hash_blake2s 32 64 (2 ^ 64) (blake2s_r (extra_block 64) 10 [] 32) /\
  is_digest 32 sha256 /\ is_digest 64 sha512 /\ is_digest 20 sha1 /\ is_digest 16 md5 /\ is_digest 32 (blake2s_r (extra_block 64) 10 [] 32).
Proof.
  exact (conj pbkdf2_sha256 (conj pbkdf2_sha512 (conj pbkdf2_sha1 (conj pbkdf2_md5 (conj pbkdf2_blake2s (conj sha256_is (conj sha512_is (conj sha1_is (conj md5_is (blake2s_is _ _ _ _)))))))))).
Qed.
(** When block 1 is drawn everything worked out so far is lost: the block is zeros from there. *)
Theorem C41_forgets a e r n v k x t : (0 < r)%nat -> length x = (128 * r)%nat -> integerify r x n = a ->
  over_use a e r n v (S k) x t = over_use a e r n v k (repeat 0 (128 * r)) (repeat 0 (128 * r)).
Proof. exact (over_forgets a e r n v k x t). Qed.
Print Assumptions C41_scrypt. Print Assumptions C41_repaired. Print Assumptions C41_every_hmac. Print Assumptions C41_exact. Print Assumptions C41_hashes. Print Assumptions C41_forgets.
Example C41_case : forallb (fun j => negb (j =? 1)%nat && negb (j =? 2)%nat) (scrypt_draws (hmac 64 sha256 [1]) 32 (2 ^ 2) 1 1 (ascii_bytes "NaCl")) = true /\
  scrypt (hmac_desc hash_sha2_256) 0 4 1 1 [1] (ascii_bytes "NaCl") 64 (repeat 7 192) =
  Ok (hex "f77f30ba19a194042436b26931dd4a8fcd46e161b8816cd233b9d7697af67d9851a2ab971ff4a4673678fe6dc81978ebcff667ae7d97d64e82ccafe330e04d5b").
Proof. split; vm_compute; reflexivity. Qed.
(** scrypt (password, NaCl, 2, 1, 1) *)
Example C41_spec : scrypt_key (hmac 64 sha256 pw) 32 2 1 1 (ascii_bytes "NaCl") 64 = hex "a2f63b8c062d326091944189baeb665b072c901775e8e81b1376ebc572a178499077498e8909af5a4cfdb7832a7a38e5daa9ab5226f579663c9417180e21b2b3".
Proof. vm_compute. reflexivity. Qed.
(** there block 1 is drawn *)
Example C41_drawn : existsb (Nat.eqb 1) (scrypt_draws (hmac 64 sha256 pw) 32 2 1 1 (ascii_bytes "NaCl")) = true /\
  scrypt (hmac_desc hash_sha2_256) 0 2 1 1 pw (ascii_bytes "NaCl") 64 (repeat 7 128) = Ok (over_key 1 2 (hmac 64 sha256 pw) 32 2 1 1 (ascii_bytes "NaCl") 64).
Proof. split; vm_compute; reflexivity. Qed.
(** The saved block 1 is the working area itself, and the working area xor itself is zero: different inputs of SMix give the same, zeros. *)
Theorem C41_refuted : exists pass salt junk k, length junk = scrypt_room 2 1 /\ scrypt (hmac_desc hash_sha2_256) 0 2 1 1 pass salt 64 junk = Ok k /\ k <> scrypt_key (hmac 64 sha256 pass) 32 2 1 1 salt 64.
Proof.
  exists pw, (ascii_bytes "NaCl"), (repeat 7 128). eexists. split; [reflexivity|]. split; [vm_compute; reflexivity|]. rewrite C41_spec. intros H. apply (f_equal be_val) in H. revert H. apply N.eqb_neq. vm_compute. reflexivity.
Qed.
Theorem C41_smix_refuted : exists b b' junk, b <> b' /\ length b = 128%nat /\ length b' = 128%nat /\ length junk = scrypt_room 2 1 /\
  (let* x := sc_smix b 1 2 0 32 64 junk in Ok (fst x)) = Ok (repeat 0 128) /\ (let* x := sc_smix b' 1 2 0 32 64 junk in Ok (fst x)) = Ok (repeat 0 128).
Proof.
  exists (repeat 2 128), (repeat 5 128), (repeat 7 128). split; [discriminate|]. split; [reflexivity|]. split; [reflexivity|]. split; [reflexivity|]. split; vm_compute; reflexivity.
Qed.
Print Assumptions C41_refuted. Print Assumptions C41_smix_refuted.
