(** C33 HMAC; C35 for HMAC, OMAC, XCBC and the Keccak MACs.
    [mac_computes d r key n okl okm T], [mac_gives d s okl okm T] (Spec/Mac.v): the tags of a new object are the bytes of [T], for
    every splitting of messages of the lengths [okm], the readings [okl] of the tag, and verification accepts exactly these. *)
From Coq Require Import String NArith Arith List Bool.
From Verif Require Import Lib.Res Lib.Bytes Lib.Hex Spec.Words Spec.Hash Spec.Hashes Spec.Mac Spec.Hmac Spec.Sha1 Spec.Md5 Spec.Sha2 Spec.Keccak
  Model.HashApi Model.MacApi Model.Hmac Model.Sha1 Model.Md5 Model.Sha2 Model.Keccak Proof.Sha1P Proof.Sha2P Proof.KeccakP Proof.HmacP Proof.DigestsP Proof.HmacPubP.
Import ListNotations.
Local Open Scope N_scope.
Local Notation length := List.length.
Local Notation concat := List.concat.

(** C33: full tags, over every hash [H] of [hash_use], for new objects and recreated ones.  [ok_hmac] are the lengths for which both
    calls of the hash get a message it takes. *)
Theorem C33_every_hash d r n cap okm key : hash_use d r [] n cap okm -> bytes_ok key -> (0 < length key)%nat ->
  (length key <= hs_blocksize d \/ n <= hs_blocksize d /\ okm (length key))%nat ->
  exists H, computes d r [] n cap okm H /\
    let T := hmac (hs_blocksize d) (fun m => firstn n (H m)) key in
    let ok := ok_hmac (hs_blocksize d) n okm in
    mac_computes (hmac_desc d) r key n (eq [n]) ok T /\ forall s, mac_gives (hmac_desc d) (mac_recreate (hmac_desc d) s r key n) (eq [n]) ok T.
Proof. exact (hmac_use d r n cap okm key). Qed.
(** RFC 2104 over the published hashes *)
Definition is_hmac (d : hash) (n B : nat) (lim : N) (H : list N -> list N) : Prop :=
  forall key, bytes_ok key -> (0 < length key)%nat -> N.of_nat (length key) < lim ->
  let ok := fun l : nat => N.of_nat (B + l) < lim in
  mac_computes (hmac_desc d) 0 key n (eq [n]) ok (hmac B (fun m => firstn n (H m)) key) /\
  forall s, mac_gives (hmac_desc d) (mac_recreate (hmac_desc d) s 0 key n) (eq [n]) ok (hmac B (fun m => firstn n (H m)) key).
Theorem C33_sha256 : is_hmac hash_sha2_256 32 64 (2 ^ 61) sha256.
Proof. exact (hmac_lim hash_sha2_256 32 32 (2 ^ 61) sha256 (sha256_computes 32 (conj (proj1 (Nat.ltb_lt 28 32) eq_refl) (le_n 32))) (sha256_digests _) (le_n 32) (proj1 (Nat.leb_le 32 64) eq_refl) eq_refl). Qed.
Theorem C33_sha224 : is_hmac hash_sha2_256 28 64 (2 ^ 61) sha224.
Proof. exact (hmac_lim hash_sha2_256 28 28 (2 ^ 61) sha224 (sha224_computes 28 (le_n 28)) (sha224_digests _) (le_n 28) (proj1 (Nat.leb_le 28 64) eq_refl) eq_refl). Qed.
Theorem C33_sha512 : is_hmac hash_sha2_512 64 128 (2 ^ 125) sha512.
Proof. exact (hmac_lim hash_sha2_512 64 64 (2 ^ 125) sha512 (sha512_computes 64 (conj (proj1 (Nat.ltb_lt 48 64) eq_refl) (le_n 64))) (sha512_digests _) (le_n 64) (proj1 (Nat.leb_le 64 128) eq_refl) eq_refl). Qed.
Theorem C33_sha384 : is_hmac hash_sha2_512 48 128 (2 ^ 125) sha384.
Proof. exact (hmac_lim hash_sha2_512 48 48 (2 ^ 125) sha384 (sha384_computes 48 (le_n 48)) (sha384_digests _) (le_n 48) (proj1 (Nat.leb_le 48 128) eq_refl) eq_refl). Qed.
Theorem C33_sha1 : is_hmac hash_sha1 20 64 (2 ^ 61) sha1.
Proof. exact (hmac_lim hash_sha1 20 20 (2 ^ 61) sha1 (sha1_computes 20 (le_n 20)) (sha1_digests _) (le_n 20) (proj1 (Nat.leb_le 20 64) eq_refl) eq_refl). Qed.
Theorem C33_md5 : is_hmac hash_md5 16 64 (2 ^ 61) md5.
Proof. exact (hmac_lim hash_md5 16 16 (2 ^ 61) md5 (md5_computes 0 16 (le_n 16)) (md5_digests _) (le_n 16) (proj1 (Nat.leb_le 16 64) eq_refl) eq_refl). Qed.
(** Tags of another length than that of the object: both hashes are cut to the length of the tag. *)
Theorem C33_other_length d r n len capn capl okm H H' key :
  computes d r [] n capn okm H -> computes d r [] len capl okm H' -> digests n okm H -> digests len okm H' -> digests len okm H -> (len <= capn)%nat -> (len <= capl)%nat ->
  bytes_ok key -> (length key <= hs_blocksize d \/ n <= hs_blocksize d /\ okm (length key))%nat -> (0 < length key)%nat ->
  let B := hs_blocksize d in
  let K := hmac_key B (fun m => firstn n (H m)) key in
  mac_gives (hmac_desc d) (mac_create (hmac_desc d) r key n) (eq [len]) (fun l => okm (B + l) /\ okm (B + len))%nat
    (fun m => firstn len (H' (pad_key B opad K ++ firstn len (H (pad_key B ipad K ++ m))))).
Proof. exact (fun C C' D D' D'' L L' Bk Kk Lk => hmac_gives_create d r n len capn capl okm H H' C C' D D' L L' D'' key Bk Kk Lk). Qed.
Print Assumptions C33_every_hash. Print Assumptions C33_sha256. Print Assumptions C33_sha224. Print Assumptions C33_sha512.
Print Assumptions C33_sha384. Print Assumptions C33_sha1. Print Assumptions C33_md5. Print Assumptions C33_other_length.
(** RFC 4231, test cases 1 and 6 (a key longer than the block), RFC 2202, test case 1 for HMAC-MD5 *)
Definition hi : list N := [0x48; 0x69; 0x20; 0x54; 0x68; 0x65; 0x72; 0x65].
Example C33_rfc4231 : tag_of (hmac_desc hash_sha2_256) (mac_create (hmac_desc hash_sha2_256) 0 (repeat 0x0b 20) 32) [firstn 3 hi; []; skipn 3 hi] [32%nat] =
    Ok (hex "b0344c61d8db38535ca8afceaf0bf12b881dc200c9833da726e9376c2e32cff7") /\
  mac_all (hmac_desc hash_sha2_256) 0 (repeat 0xaa 131) (ascii_bytes "Test Using Larger Than Block-Size Key - Hash Key First") 32 =
    Ok (hex "60e431591ee0b67f0d8a26aacbf5b77f8e0bc6213728c5140546040f0ee37f54") /\
  hmac 64 md5 (repeat 0x0b 16) hi = hex "9294727a3638bb1c13f48ef8158bfc9d" /\
  hmac 64 sha256 (repeat 0x0b 20) hi = hex "b0344c61d8db38535ca8afceaf0bf12b881dc200c9833da726e9376c2e32cff7".
Proof. split; [vm_compute; reflexivity|]. split; [vm_compute; reflexivity|]. split; vm_compute; reflexivity. Qed.
Example C33_case : hash_use hash_sha3 0 [] 32 64 (fun _ => True) /\ hs_blocksize hash_sha3 = 200%nat /\ hs_blocksize hash_sha2_256 = 64%nat.
Proof. split; [constructor; [discriminate|apply Nat.leb_le; reflexivity]|split; reflexivity]. Qed.

(** Shorter tags are not prefixes of the full tag, whether the object is made for the shorter tag ... *)
Theorem C33_short_refuted : exists key m t t', mac_all (hmac_desc hash_sha2_512) 0 key m 64 = Ok t /\ mac_all (hmac_desc hash_sha2_512) 0 key m 56 = Ok t' /\ t' <> firstn 56 t.
Proof. exists [1], []. eexists _, _. split; [vm_compute; reflexivity|]. split; [vm_compute; reflexivity|]. vm_compute. discriminate. Qed.
(** ... or only the tag is read with a smaller length; reading the tag in two pieces changes it as well. *)
Theorem C33_read_refuted : exists key m t t', tag_of (hmac_desc hash_sha1) (mac_create (hmac_desc hash_sha1) 0 key 20) [m] [20%nat] = Ok t /\
  tag_of (hmac_desc hash_sha1) (mac_create (hmac_desc hash_sha1) 0 key 20) [m] [10; 10]%nat = Ok t' /\ firstn 10 t' <> firstn 10 t.
Proof. exists [1], []. eexists _, _. split; [vm_compute; reflexivity|]. split; [vm_compute; reflexivity|]. vm_compute. discriminate. Qed.
(** Over SHA-3 the padded key is 200 bytes, the size of the state, not the block size (136 for SHA3-256) of FIPS 202. *)
Theorem C33_sha3_refuted : exists key m t, mac_all (hmac_desc hash_sha3) 0 key m 32 = Ok t /\ be_val t <> be_val (hmac 136 (sha3 32) key m).
Proof.
  exists [1], []. eexists. split; [vm_compute; reflexivity|]. rewrite hmac_sha3_run by (repeat constructor || (apply Nat.leb_le; reflexivity)). apply N.eqb_neq. vm_compute. reflexivity.
Qed.
Print Assumptions C33_short_refuted. Print Assumptions C33_read_refuted. Print Assumptions C33_sha3_refuted.

(** C35.  The theorems on the single MACs (C31, C32, C33, the Keccak MACs below) quantify over all splittings; so: *)
Theorem C35_split d s okl okm T : mac_gives d s okl okm T ->
  forall parts lens, Forall bytes_ok parts -> okm (length (concat parts)) -> okl lens -> exists t, tag_of d s parts lens = Ok t /\ tag_of d s [concat parts] lens = Ok t.
Proof. exact (gives_split d s okl okm T). Qed.
(** The Keccak MACs: the sponge over the key and the message. *)
Theorem C35_keccak1600 r n cap key : r <= 48 -> (n < 100)%nat -> (n <= cap)%nat -> bytes_ok key -> (0 < length key)%nat ->
  let T := fun m => sponge (keccak_bytes 8 (round_constant 64) (N.to_nat (rounds_of 24 r))) 200 (200 - 2 * n) 1 cap (key ++ m) in
  mac_computes mac_keccak1600 r key n (at_most cap) (fun _ => True) T /\ forall s, mac_gives mac_keccak1600 (mac_recreate mac_keccak1600 s r key n) (at_most cap) (fun _ => True) T.
Proof. exact (keccak1600_mac r n cap key). Qed.
Theorem C35_keccak800 r n cap key : r <= 40 -> (n < 50)%nat -> (n <= cap)%nat -> bytes_ok key -> (0 < length key)%nat ->
  let T := fun m => sponge (keccak_bytes 4 folded_constant (N.to_nat (rounds_of 20 r))) 100 (100 - 2 * n) 1 cap (key ++ m) in
  mac_computes mac_keccak800 r key n (at_most cap) (fun _ => True) T /\ forall s, mac_gives mac_keccak800 (mac_recreate mac_keccak800 s r key n) (at_most cap) (fun _ => True) T.
Proof. exact (keccak800_mac r n cap key). Qed.
Print Assumptions C35_split. Print Assumptions C35_keccak1600. Print Assumptions C35_keccak800.
Example C35_keccak_case : exists t, mac_all mac_keccak1600 0 [1; 2] [3] 32 = Ok t /\ Ok t = hash_all hash_keccak1600 0 [] [1; 2; 3] 32 /\ length t = 32%nat.
Proof. eexists. split; [vm_compute; reflexivity|]. split; [vm_compute; reflexivity|reflexivity]. Qed.
