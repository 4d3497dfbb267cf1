(** C54: keys that are not independent (Spec/EquivKeys.v): the symmetries of DES, TEA, GOST, IDEA, RC4 and HMAC hold of the objects of the
    library, for every block or message. *)
From Coq Require Import NArith Arith List Bool.
From Verif Require Import Lib.Res Lib.Bytes Spec.Words Spec.Block Spec.Cipher Spec.Modes Spec.Arx Spec.EquivKeys Spec.Hash Spec.Mac Spec.Hmac Spec.Sha1 Spec.Md5 Spec.Sha2
  Model.BlockApi Model.Ciphers Model.Gost Model.Rc4 Model.HashApi Model.MacApi Model.Hmac Model.Sha1 Model.Md5 Model.Sha2
  Proof.LeaPubP Proof.Sha1P Proof.Sha2P Proof.DigestsP Proof.EquivKeysP Proof.EquivKeys2P.
Import ListNotations.
Local Open Scope N_scope.

(** DES and triple DES: complementing the key and the block complements the result *)
Theorem C54_des_complement key : bytes_ok key -> In (length key) [8; 16; 24]%nat -> flips des_desc (repeat 255 8) key (map (fun x => N.lxor x 255) key).
Proof. exact (des_complement key). Qed.
(** the lowest bit of every key byte is ignored *)
Theorem C54_des_parity k k' : bytes_ok k -> bytes_ok k' -> up_to 24 k -> same_but_parity k k' -> same_cipher des_desc 0 k k'.
Proof. exact (des_parity k k'). Qed.
(** triple DES keys with equal parts are DES keys *)
Theorem C54_des_equal_parts a c : bytes_ok a -> bytes_ok c -> length a = 8%nat -> length c = 8%nat ->
  same_cipher des_desc 0 a (a ++ a) /\ same_cipher des_desc 0 c (a ++ a ++ c) /\ same_cipher des_desc 0 a (a ++ c ++ c) /\
  same_cipher des_desc 0 (a ++ c) (a ++ c ++ a).
Proof. exact (fun Ba Bc A C => conj (des_aa a Ba A) (conj (des_aac a c Ba Bc A C) (conj (des_abb a c Ba Bc A C) (des_aba a c Ba Bc A C)))). Qed.
(** encrypting twice with a weak key, or with the two keys of a semi-weak pair, gives the block back *)
Theorem C54_des_weak k : In k des_weak -> undone_by des_desc (be_bytes 8 k) (be_bytes 8 k).
Proof. exact (des_weak_ok k). Qed.
Theorem C54_des_semiweak k k' : In (k, k') des_semiweak -> undone_by des_desc (be_bytes 8 k) (be_bytes 8 k') /\ undone_by des_desc (be_bytes 8 k') (be_bytes 8 k).
Proof. exact (des_semiweak_ok k k'). Qed.
(** TEA: every full key has three others that give the same cipher, for every number of rounds *)
Theorem C54_tea r key m : bytes_ok key -> length key = 16%nat -> r < 2 ^ 32 ->
  In m [[128; 0; 0; 0; 128; 0; 0; 0; 0; 0; 0; 0; 0; 0; 0; 0]; [0; 0; 0; 0; 0; 0; 0; 0; 128; 0; 0; 0; 128; 0; 0; 0];
        [128; 0; 0; 0; 128; 0; 0; 0; 128; 0; 0; 0; 128; 0; 0; 0]] -> same_cipher tea_desc r key (xor_bytes key m).
Proof. exact (tea_equivalent r key m). Qed.
(** GOST with any S-boxes: flipping the top bits of all key words and of both halves of the block flips those of the result *)
Theorem C54_gost_flip sb key : nibbles sb -> bytes_ok key -> length key = 32%nat ->
  flips (gost_desc sb) [0; 0; 0; 128; 0; 0; 0; 128] key (xor_bytes key (times 8 [0; 0; 0; 128])).
Proof. exact (fun Hs => gost_flips sb Hs key). Qed.
(** and a key whose words read backwards are the key makes encryption its own inverse *)
Theorem C54_gost_palindrome sb key : nibbles sb -> bytes_ok key -> length key = 32%nat -> rev (le_words 4 8 key) = le_words 4 8 key ->
  undone_by (gost_desc sb) key key.
Proof. exact (fun Hs => gost_involution sb Hs key). Qed.
(** IDEA with zero keys is its own inverse *)
Theorem C54_idea_zero n : (0 < n <= 16)%nat -> undone_by idea_desc (repeat 0 n) (repeat 0 n).
Proof. exact (idea_zero n). Qed.
(** RC4: a key and its repetitions make the same object *)
Theorem C54_rc4 r n key : (0 < n)%nat -> (0 < length key)%nat -> (n * length key <= 256)%nat ->
  exists s, rc4_create r key [] = Ok s /\ rc4_create r (times n key) [] = Ok s.
Proof. exact (rc4_repeated r n key). Qed.
(** HMAC: zeros behind a key, and the digest of a long key in its place, make no difference *)
Definition hmac_same (d : hash) (n B : nat) (lim : N) (k k' : list N) : Prop :=
  exists T, mac_computes (hmac_desc d) 0 k n (eq [n]) (fun l => N.of_nat (B + l) < lim) T /\ mac_computes (hmac_desc d) 0 k' n (eq [n]) (fun l => N.of_nat (B + l) < lim) T.
Definition hmac_keys (d : hash) (n B : nat) (lim : N) (H : list N -> list N) : Prop :=
  (forall key z, bytes_ok key -> (0 < length key)%nat -> (length key + z <= B)%nat -> hmac_same d n B lim key (key ++ repeat 0 z)) /\
  (forall key, bytes_ok key -> (B < length key)%nat -> N.of_nat (length key) < lim -> hmac_same d n B lim key (firstn n (H key))).
Theorem C54_hmac_sha256 : hmac_keys hash_sha2_256 32 64 (2 ^ 61) sha256.
Proof.
  exact (let C := sha256_computes 32 (conj (proj1 (Nat.ltb_lt 28 32) eq_refl) (le_n 32)) in
         let n := conj (proj1 (Nat.ltb_lt 0 32) eq_refl) (proj1 (Nat.leb_le 32 64) eq_refl) in
         conj (hmac_same_zeros hash_sha2_256 32 32 (2 ^ 61) sha256 C (sha256_digests _) (le_n 32) n eq_refl)
              (hmac_same_hashed hash_sha2_256 32 32 (2 ^ 61) sha256 C (sha256_digests _) (le_n 32) n eq_refl)).
Qed.
Theorem C54_hmac_sha512 : hmac_keys hash_sha2_512 64 128 (2 ^ 125) sha512.
Proof.
  exact (let C := sha512_computes 64 (conj (proj1 (Nat.ltb_lt 48 64) eq_refl) (le_n 64)) in
         let n := conj (proj1 (Nat.ltb_lt 0 64) eq_refl) (proj1 (Nat.leb_le 64 128) eq_refl) in
         conj (hmac_same_zeros hash_sha2_512 64 64 (2 ^ 125) sha512 C (sha512_digests _) (le_n 64) n eq_refl)
              (hmac_same_hashed hash_sha2_512 64 64 (2 ^ 125) sha512 C (sha512_digests _) (le_n 64) n eq_refl)).
Qed.
Theorem C54_hmac_sha1 : hmac_keys hash_sha1 20 64 (2 ^ 61) sha1.
Proof.
  exact (let C := sha1_computes 20 (le_n 20) in
         let n := conj (proj1 (Nat.ltb_lt 0 20) eq_refl) (proj1 (Nat.leb_le 20 64) eq_refl) in
         conj (hmac_same_zeros hash_sha1 20 20 (2 ^ 61) sha1 C (sha1_digests _) (le_n 20) n eq_refl)
              (hmac_same_hashed hash_sha1 20 20 (2 ^ 61) sha1 C (sha1_digests _) (le_n 20) n eq_refl)).
Qed.
Theorem C54_hmac_md5 : hmac_keys hash_md5 16 64 (2 ^ 61) md5.
Proof.
  exact (let C := md5_computes 0 16 (le_n 16) in
         let n := conj (proj1 (Nat.ltb_lt 0 16) eq_refl) (proj1 (Nat.leb_le 16 64) eq_refl) in
         conj (hmac_same_zeros hash_md5 16 16 (2 ^ 61) md5 C (md5_digests _) (le_n 16) n eq_refl)
              (hmac_same_hashed hash_md5 16 16 (2 ^ 61) md5 C (md5_digests _) (le_n 16) n eq_refl)).
Qed.
Print Assumptions C54_des_complement. Print Assumptions C54_des_parity. Print Assumptions C54_des_equal_parts. Print Assumptions C54_des_weak.
Print Assumptions C54_des_semiweak. Print Assumptions C54_tea. Print Assumptions C54_gost_flip. Print Assumptions C54_gost_palindrome.
Print Assumptions C54_idea_zero. Print Assumptions C54_rc4. Print Assumptions C54_hmac_sha256. Print Assumptions C54_hmac_sha512.
Print Assumptions C54_hmac_sha1. Print Assumptions C54_hmac_md5.

(** Keys that meet the hypotheses; another key than a weak one is not its own inverse. *)
Definition demo8 : list N := [0x13; 0x34; 0x57; 0x79; 0x9B; 0xBC; 0xDF; 0xF1].
Definition demo32 : list N := let a := [1; 2; 3; 4] in let b := [5; 6; 7; 8] in let c := [9; 10; 11; 12] in let d := [13; 14; 15; 16] in
  a ++ b ++ c ++ d ++ d ++ c ++ b ++ a.
Definition twice (c : bcipher) (key : list N) (b : list N) : res (list N) :=
  let* s := bc_create c 0 key in let* y := bc_enc c s b in bc_enc c s y.
Example C54_keys : same_but_parity demo8 [0x12; 0x35; 0x56; 0x78; 0x9A; 0xBD; 0xDE; 0xF0] /\ up_to 24 demo8 /\
  length demo32 = 32%nat /\ rev (le_words 4 8 demo32) = le_words 4 8 demo32 /\ nibbles gost_cbr.
Proof. split; [reflexivity|]. split; [split; repeat constructor|]. split; [reflexivity|]. split; [reflexivity|exact gost_cbr_nibbles]. Qed.
Example C54_twice : twice des_desc (be_bytes 8 0x0101010101010101) demo8 = Ok demo8 /\ twice des_desc demo8 demo8 <> Ok demo8 /\
  twice (gost_desc gost_cbr) demo32 demo8 = Ok demo8 /\ twice (gost_desc gost_cbr) (map N.of_nat (seq 1 32)) demo8 <> Ok demo8.
Proof. split; [vm_compute; reflexivity|]. split; [vm_compute; discriminate|]. split; [vm_compute; reflexivity|vm_compute; discriminate]. Qed.
