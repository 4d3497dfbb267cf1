(** C19 - C22, C26, C30: SHA-2, SHA-1, MD5, Tiger and Whirlpool.
    [computes d r salt n cap okm H] (Spec/Hash.v): a new object, an object made new by recreate and hash_all give
    the bytes of [H], for every splitting of the message and of the digest. *)
From Coq Require Import NArith Arith List Bool.
From Verif Require Import Lib.Res Lib.Bytes Spec.Words Spec.Modes Spec.Hash Spec.Collision Spec.Sha1 Spec.Md5 Spec.Sha2 Spec.Tiger Spec.Whirlpool
  Model.HashApi Model.Sha1 Model.Md5 Model.Sha2 Model.Tiger Model.Whirlpool
  Proof.MdP Proof.MdCollP Proof.Sha1P Proof.Sha2P Proof.TigerP Proof.WhirlpoolP Proof.HashCollP.
Import ListNotations.
Local Open Scope N_scope.

(** a message of 150 bytes in four chunks meets the conditions of [computes] *)
Definition chunks : list (list N) := [repeat 5 63; []; repeat 7 80; map N.of_nat (seq 0 7)].
Example chunks_ok : Forall bytes_ok chunks /\ N.of_nat (length (concat chunks)) < 2 ^ 61.
Proof. split; [|reflexivity]. unfold chunks. repeat constructor. Qed.

(** C19 *)
Theorem C19_sha256 n : (28 < n <= 32)%nat -> computes hash_sha2_256 0 [] n n (fun len => N.of_nat len < 2 ^ 61) sha256.
Proof. exact (sha256_computes n). Qed.
Theorem C19_sha224 n : (n <= 28)%nat -> computes hash_sha2_256 0 [] n n (fun len => N.of_nat len < 2 ^ 61) sha224.
Proof. exact (sha224_computes n). Qed.
(** other round numbers: rounded up to 16 + 8k, at most 128 *)
Theorem C19_sha2_256_rounds r n : (n <= 32)%nat -> (rounds32 r <= 128)%nat ->
  computes hash_sha2_256 r [] n 32 (fun len => N.of_nat len < 2 ^ 61) (sha2_32 (rounds32 r) (siv32 n)).
Proof. exact (sha2_256_computes r n). Qed.
(** more rounds read beyond the table of round constants *)
Theorem C19_sha2_256_rounds_refuted : exists r, hash_all hash_sha2_256 r [] [] 32 = Err OobRead.
Proof. exists 129. vm_compute. reflexivity. Qed.
Print Assumptions C19_sha256. Print Assumptions C19_sha224. Print Assumptions C19_sha2_256_rounds. Print Assumptions C19_sha2_256_rounds_refuted.
Example C19_digest : digest hash_sha2_256 (hash_create hash_sha2_256 0 [] 32) [[0x61]; []; [0x62; 0x63]] [3; 0; 29]%nat =
  Ok [0xBA; 0x78; 0x16; 0xBF; 0x8F; 0x01; 0xCF; 0xEA; 0x41; 0x41; 0x40; 0xDE; 0x5D; 0xAE; 0x22; 0x23;
      0xB0; 0x03; 0x61; 0xA3; 0x96; 0x17; 0x7A; 0x9C; 0xB4; 0x10; 0xFF; 0x61; 0xF2; 0x00; 0x15; 0xAD].
Proof. vm_compute. reflexivity. Qed.

(** C20 *)
Theorem C20_sha512 n : (48 < n <= 64)%nat -> computes hash_sha2_512 0 [] n n (fun len => N.of_nat len < 2 ^ 125) sha512.
Proof. exact (sha512_computes n). Qed.
Theorem C20_sha384 n : (n <= 48)%nat -> computes hash_sha2_512 0 [] n n (fun len => N.of_nat len < 2 ^ 125) sha384.
Proof. exact (sha384_computes n). Qed.
Theorem C20_sha2_512_rounds r n : (n <= 64)%nat -> (rounds64 r <= 160)%nat ->
  computes hash_sha2_512 r [] n 64 (fun len => N.of_nat len < 2 ^ 125) (sha2_64 (rounds64 r) (siv64 n)).
Proof. exact (sha2_512_computes r n). Qed.
Theorem C20_sha2_512_rounds_refuted : exists r, hash_all hash_sha2_512 r [] [] 64 = Err OobRead.
Proof. exists 161. vm_compute. reflexivity. Qed.
Print Assumptions C20_sha512. Print Assumptions C20_sha384. Print Assumptions C20_sha2_512_rounds. Print Assumptions C20_sha2_512_rounds_refuted.

(** C21, C22 *)
Theorem C21_sha1 n : (n <= 20)%nat -> computes hash_sha1 0 [] n 20 (fun len => N.of_nat len < 2 ^ 61) sha1.
Proof. exact (sha1_computes n). Qed.
Theorem C22_md5 r n : (n <= 16)%nat -> computes hash_md5 r [] n 16 (fun len => N.of_nat len < 2 ^ 61) md5.
Proof. exact (md5_computes r n). Qed.
Print Assumptions C21_sha1. Print Assumptions C22_md5.

(** C26.  The blocks determine the message ... *)
Theorem C26_pad_inj bs lb first m m' : (0 < lb < bs)%nat -> first < 256 ->
  8 * N.of_nat (length m) < 256 ^ N.of_nat lb -> 8 * N.of_nat (length m') < 256 ^ N.of_nat lb ->
  blocks bs (md_pad bs lb first be_bytes m) = blocks bs (md_pad bs lb first be_bytes m') \/
  blocks bs (md_pad bs lb first le_bytes m) = blocks bs (md_pad bs lb first le_bytes m') -> m = m'.
Proof. exact (both_pad_inj bs lb first m m'). Qed.
(** ... and when two messages have the same digest, the compression function is given two different inputs with the same result on the way *)
Theorem C26_sha2_256 r m m' : (rounds32 r <= 128)%nat -> bytes_ok m -> bytes_ok m' -> below (2 ^ 61) (length m) -> below (2 ^ 61) (length m') -> m <> m' ->
  hash_all hash_sha2_256 r [] m 32 = hash_all hash_sha2_256 r [] m' 32 -> 
    collision_in (sha2_compress f256 (rounds32 r)) iv256 (blocks 64 (md_pad 64 8 0x80 be_bytes m)) (blocks 64 (md_pad 64 8 0x80 be_bytes m')).
Proof. exact (sha2_256_collision r m m'). Qed.
Theorem C26_sha2_512 r m m' : (rounds64 r <= 160)%nat -> bytes_ok m -> bytes_ok m' -> below (2 ^ 125) (length m) -> below (2 ^ 125) (length m') -> m <> m' ->
  hash_all hash_sha2_512 r [] m 64 = hash_all hash_sha2_512 r [] m' 64 -> 
    collision_in (sha2_compress f512 (rounds64 r)) iv512 (blocks 128 (md_pad 128 16 0x80 be_bytes m)) (blocks 128 (md_pad 128 16 0x80 be_bytes m')).
Proof. exact (sha2_512_collision r m m'). Qed.
Theorem C26_sha1 m m' : bytes_ok m -> bytes_ok m' -> below (2 ^ 61) (length m) -> below (2 ^ 61) (length m') -> m <> m' ->
  hash_all hash_sha1 0 [] m 20 = hash_all hash_sha1 0 [] m' 20 -> 
    collision_in sha1_compress sha1_h0 (blocks 64 (md_pad 64 8 0x80 be_bytes m)) (blocks 64 (md_pad 64 8 0x80 be_bytes m')).
Proof. exact (sha1_collision m m'). Qed.
Theorem C26_md5 r m m' : bytes_ok m -> bytes_ok m' -> below (2 ^ 61) (length m) -> below (2 ^ 61) (length m') -> m <> m' ->
  hash_all hash_md5 r [] m 16 = hash_all hash_md5 r [] m' 16 -> 
    collision_in md5_compress md5_h0 (blocks 64 (md_pad 64 8 0x80 le_bytes m)) (blocks 64 (md_pad 64 8 0x80 le_bytes m')).
Proof. exact (md5_collision r m m'). Qed.
Theorem C26_tiger r m m' : bytes_ok m -> bytes_ok m' -> below (2 ^ 61) (length m) -> below (2 ^ 61) (length m') -> m <> m' ->
  hash_all hash_tiger r [] m 24 = hash_all hash_tiger r [] m' 24 -> 
    collision_in (tiger_compress (passes_of r)) tiger_h0 (blocks 64 (md_pad 64 8 0x01 le_bytes m)) (blocks 64 (md_pad 64 8 0x01 le_bytes m')).
Proof. exact (tiger_collision r m m'). Qed.
Theorem C26_whirlpool r m m' : r < 10 -> bytes_ok m -> bytes_ok m' -> below (2 ^ 253) (length m) -> below (2 ^ 253) (length m') -> m <> m' ->
  hash_all hash_whirlpool r [] m 64 = hash_all hash_whirlpool r [] m' 64 -> 
    collision_in (whirlpool_compress (rounds_w r)) (repeat 0 64) (blocks 64 (md_pad 64 32 0x80 be_bytes m)) (blocks 64 (md_pad 64 32 0x80 be_bytes m')).
Proof. exact (whirlpool_collision r m m'). Qed.
Print Assumptions C26_pad_inj. Print Assumptions C26_sha2_256. Print Assumptions C26_sha2_512. Print Assumptions C26_sha1.
Print Assumptions C26_md5. Print Assumptions C26_tiger. Print Assumptions C26_whirlpool.
(** no two short messages with the same digest are known for the unbroken ones; for MD5 there are
    (the pair of one block messages by Marc Stevens, 2012), so the premises can be met *)
Example C26_md5_pair : md5_stevens1 <> md5_stevens2 /\ length md5_stevens1 = 64%nat /\
  hash_all hash_md5 0 [] md5_stevens1 16 = hash_all hash_md5 0 [] md5_stevens2 16.
Proof. split; [discriminate|]. split; [reflexivity|]. vm_compute. reflexivity. Qed.

(** C30 *)
Theorem C30_tiger r n : (n <= 24)%nat -> computes hash_tiger r [] n 24 (fun len => N.of_nat len < 2 ^ 61) (tiger (passes_of r)).
Proof. exact (tiger_computes r n). Qed.
Theorem C30_whirlpool r n : r < 10 -> (n <= 64)%nat -> computes hash_whirlpool r [] n 64 (fun len => N.of_nat len < 2 ^ 253) (whirlpool (rounds_w r)).
Proof. exact (whirlpool_computes r n). Qed.
Theorem C30_default_rounds : passes_of 0 = 3%nat /\ rounds_w 0 = 10%nat.
Proof. exact (conj eq_refl eq_refl). Qed.
(** the standard number of rounds is refused when it is given *)
Theorem C30_whirlpool_rounds_refuted : hash_create hash_whirlpool 10 [] 64 = Err AssertFail.
Proof. exact eq_refl. Qed.
Print Assumptions C30_tiger. Print Assumptions C30_whirlpool. Print Assumptions C30_default_rounds. Print Assumptions C30_whirlpool_rounds_refuted.
