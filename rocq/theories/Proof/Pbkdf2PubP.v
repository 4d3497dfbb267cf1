(** PBKDF2 over the MACs of the library. *)
From Coq Require Import NArith Arith List Bool Lia.
From Verif Require Import Lib.Res Lib.Bytes Lib.XorBytes Lib.Lists Lib.BlockLemmas Spec.Words Spec.Block Spec.Cipher Spec.Arx Spec.Aes Spec.Modes Spec.CbcMac Spec.Mac Spec.Hash Spec.Hashes Spec.Hmac Spec.Ae Spec.Kdf
  Spec.Sha1 Spec.Sha2 Spec.Md5 Spec.Keccak Model.HashApi Model.MacApi Model.BlockApi Model.Ciphers Model.Omac Model.Hmac Model.Sha1 Model.Md5 Model.Sha2 Model.Keccak Model.Kdf Proof.CbcMacP Proof.CbcMacPubP
  Proof.KeccakP Proof.DigestsP Lib.Word Lib.Bij Lib.WordsP Proof.MdCollP Proof.HashCollP Proof.Sha1P Proof.Sha2P Proof.HmacP Proof.HmacPubP Proof.EaxP Proof.AePubP Proof.Pbkdf2P.
Import ListNotations.
Local Open Scope N_scope.

Lemma always_steady d r key n okl okm T : mac_gives d (mac_create d r key n) okl okm T -> (forall m, mac_gives d (mac_recreate d m r key n) okl okm T) -> mac_steady d r key n okl okm T.
Proof. intros G R. split; [exact G|]. intros m _. apply R. Qed.

(** The function does not change if the pseudo-random function is given otherwise *)
Lemma pb_sum_ext (p q : list N -> list N) k : (forall m, bytes_ok m -> p m = q m) -> (forall m, bytes_ok m -> bytes_ok (p m)) -> forall u, bytes_ok u -> pb_sum p k u = pb_sum q k u.
Proof. intros E B. induction k as [|k IH]; intros u Bu; [reflexivity|]. cbn [pb_sum]. rewrite <- (E u Bu). f_equal. apply IH. now apply B. Qed.
Lemma pbkdf2_ext (p q : list N -> list N) h c salt len : (forall m, bytes_ok m -> p m = q m) -> (forall m, bytes_ok m -> bytes_ok (p m)) -> bytes_ok salt -> pbkdf2_key p h c salt len = pbkdf2_key q h c salt len.
Proof.
  intros E B Bs. unfold pbkdf2_key. f_equal. f_equal. apply map_ext_in. intros i _. unfold pb_block.
  assert (X : bytes_ok (salt ++ be_bytes 4 (N.of_nat i))) by (apply Forall_app; split; [exact Bs|apply bytes_be_bytes]).
  rewrite <- (E _ X). apply pb_sum_ext; [exact E|exact B|now apply B].
Qed.
(** shorter requests are prefixes *)
Lemma pb_prefix p h c salt a b : (0 < h)%nat -> (a <= b)%nat -> (forall i, length (pb_block p c salt i) = h) -> pbkdf2_key p h c salt a = firstn a (pbkdf2_key p h c salt b).
Proof.
  intros Hh Hab Hl. unfold pbkdf2_key. rewrite firstn_firstn, Nat.min_l by exact Hab.
  assert (L : (pb_blocks h a <= pb_blocks h b)%nat) by (unfold pb_blocks; apply Nat.div_le_mono; lia).
  replace (pb_blocks h b) with (pb_blocks h a + (pb_blocks h b - pb_blocks h a))%nat by lia. rewrite seq_app, map_app, concat_app, firstn_app.
  assert (Lc : forall s n, length (concat (map (pb_block p c salt) (seq s n))) = (h * n)%nat).
  { intros s n. revert s. induction n as [|n IH]; intros s; [cbn; lia|]. cbn [seq map concat]. rewrite app_length, Hl, IH. lia. }
  assert (Ha : (a <= h * pb_blocks h a)%nat).
  { unfold pb_blocks. assert (D := Nat.div_mod (a + h - 1) h ltac:(lia)). assert (M := Nat.mod_upper_bound (a + h - 1) h ltac:(lia)). lia. }
  rewrite Lc. replace (a - h * pb_blocks h a)%nat with O by lia. cbn [firstn]. now rewrite app_nil_r.
Qed.

Definition is_digest (n : nat) (H : list N -> list N) : Prop := forall m, bytes_ok m -> bytes_ok (H m) /\ length (H m) = n.
Lemma md_is n bs lb first enc c (hok : list N -> Prop) ser iv :
  (0 < lb < bs)%nat -> first < 256 -> (forall x, blk lb (enc lb x)) -> (forall h b, hok h -> blk bs b -> hok (c h b)) -> hok iv ->
  (forall h, hok h -> bytes_ok (ser h) /\ length (ser h) = n) -> is_digest n (fun l => ser (iterate bs c iv (md_pad bs lb first enc l))).
Proof.
  intros Hb Hf He Hc Hiv Hs m Bm. apply Hs. apply (MdCollP.fold_ok bs c hok Hc); [exact Hiv|]. apply (MdCollP.blocks_blk bs lb first Hb Hf). now apply (MdCollP.pad_bytes bs lb first).
Qed.
Lemma sha256_is : is_digest 32 sha256.
Proof.
  apply (md_is 32 64 8 0x80 be_bytes (sha2_compress f256 64) (fun h => length h = 8%nat) (be_string 4) iv256); try lia; try reflexivity.
  - intros x. apply WordsP.blk_be_bytes.
  - intros h b Hh _. now apply (compress_ok f256).
  - intros h Hh. split; [apply bytes_be_string|]. now rewrite WordsP.length_be_string, Hh.
Qed.
Lemma sha512_is : is_digest 64 sha512.
Proof.
  apply (md_is 64 128 16 0x80 be_bytes (sha2_compress f512 80) (fun h => length h = 8%nat) (be_string 8) iv512); try lia; try reflexivity.
  - intros x. apply WordsP.blk_be_bytes.
  - intros h b Hh _. now apply (compress_ok f512).
  - intros h Hh. split; [apply bytes_be_string|]. now rewrite WordsP.length_be_string, Hh.
Qed.
Lemma sha1_is : is_digest 20 sha1.
Proof.
  apply (md_is 20 64 8 0x80 be_bytes _ words5 (be_string 4) sha1_h0); try lia.
  - intros x. apply WordsP.blk_be_bytes.
  - intros h b Hh Hb. now apply process1_eq.
  - h0.
  - intros h [Hh _]. split; [apply bytes_be_string|]. now rewrite WordsP.length_be_string, Hh.
Qed.
Lemma md5_is : is_digest 16 md5.
Proof.
  apply (md_is 16 64 8 0x80 le_bytes _ words4 (le_string 4) md5_h0); try lia.
  - intros x. apply WordsP.blk_le_bytes.
  - intros h b Hh Hb. now apply process5_eq.
  - h0.
  - intros h [Hh _]. split; [apply DigestsP.bytes_le_string|]. now rewrite WordsP.length_le_string, Hh.
Qed.

Lemma pad_key_ok B c K : c < 256 -> bytes_ok K -> bytes_ok (pad_key B c K).
Proof.
  intros Hc HK. unfold pad_key. apply bytes_xor.
  - unfold zero_pad. apply Forall_app. split; [exact HK|]. apply Forall_forall. intros y Hy. apply repeat_spec in Hy. subst y. reflexivity.
  - apply Forall_forall. intros y Hy. apply repeat_spec in Hy. now subst y.
Qed.
Lemma hmac_is n B H key : is_digest n H -> bytes_ok key -> is_digest n (hmac B H key).
Proof.
  intros D Bk m Bm. unfold hmac. assert (X : bytes_ok (hmac_key B H key)) by (unfold hmac_key; destruct (_ <=? _)%nat; [exact Bk|now apply D]).
  apply D. apply Forall_app. split; [now apply pad_key_ok|]. apply D. apply Forall_app. split; [now apply pad_key_ok|exact Bm].
Qed.
Lemma hmac_whole n B H key m : is_digest n H -> bytes_ok key -> bytes_ok m -> hmac B (fun m => firstn n (H m)) key m = hmac B H key m.
Proof.
  intros D Bk Bm. assert (E : forall m, bytes_ok m -> firstn n (H m) = H m) by (intros l Bl; apply firstn_all2; destruct (D l Bl) as [_ L]; lia).
  assert (Ek : hmac_key B (fun m => firstn n (H m)) key = hmac_key B H key) by (unfold hmac_key; destruct (_ <=? _)%nat; [reflexivity|now apply E]).
  assert (X : bytes_ok (hmac_key B H key)) by (unfold hmac_key; destruct (_ <=? _)%nat; [exact Bk|now apply D]).
  unfold hmac. rewrite Ek. rewrite (E (pad_key B ipad (hmac_key B H key) ++ m)) by (apply Forall_app; split; [now apply pad_key_ok|exact Bm]).
  apply E. apply Forall_app. split; [now apply pad_key_ok|]. apply D. apply Forall_app. split; [now apply pad_key_ok|exact Bm].
Qed.

(** PBKDF2-HMAC of RFC 8018, for requests of at least a digest *)
Definition pbkdf2_hmac_ok (d : hash) (n B : nat) (lim : N) (H : list N -> list N) : Prop :=
  forall iter pass salt len, bytes_ok pass -> (0 < length pass)%nat -> N.of_nat (length pass) < lim -> bytes_ok salt -> N.of_nat (B + length salt + 4) < lim -> 0 < iter ->
  (n <= len)%nat -> N.of_nat (pb_blocks n len) < 2 ^ 32 ->
  pbkdf2 (hmac_desc d) 0 iter pass salt len = Ok (pbkdf2_key (hmac B H pass) n iter salt len).
Lemma pbkdf2_hmac d n B lim H : computes d 0 [] n n (fun l => N.of_nat l < lim) H -> is_digest n H -> (0 < n <= B)%nat -> hs_blocksize d = B -> hs_maxout d = n -> (N.of_nat (B + n) <? lim) = true ->
  pbkdf2_hmac_ok d n B lim H.
Proof.
  intros C D Hn HB Hm Hlim iter pass salt len Bp Lp Lp' Bs Ls Hi Hlen Hb. subst B. rename n into k. rename Hm into Hk.
  assert (Dg : digests k (fun l => N.of_nat l < lim) H) by (intros m Bm _; destruct (D m Bm); split; [assumption|lia]).
  destruct (hmac_lim d k k lim H C Dg (le_n k) (proj2 Hn) Hlim pass Bp Lp Lp') as [[G _] R]. apply N.ltb_lt in Hlim.
  assert (Ex : Nat.min len (mc_maxtag (hmac_desc d)) = k) by (cbn [mc_maxtag hmac_desc]; lia).
  assert (Et : forall m, bytes_ok m -> firstn k (hmac (hs_blocksize d) (fun m => firstn k (H m)) pass m) = hmac (hs_blocksize d) H pass m).
  { intros m Bm. rewrite (hmac_whole k) by assumption. apply firstn_all2. destruct (hmac_is k (hs_blocksize d) H pass D Bp m Bm) as [_ L]. lia. }
  rewrite (pbkdf2_ok (hmac_desc d) 0 iter pass salt len (eq [k]) (fun l => N.of_nat (hs_blocksize d + l) < lim) (hmac (hs_blocksize d) (fun m => firstn k (H m)) pass)); rewrite ?Ex; try assumption.
  - f_equal. apply pbkdf2_ext; [exact Et| |exact Bs]. intros m Bm. rewrite Et by exact Bm. now apply (hmac_is k).
  - apply always_steady; assumption.
  - reflexivity.
  - intros m Bm _. rewrite (hmac_whole k) by assumption. destruct (hmac_is k (hs_blocksize d) H pass D Bp m Bm). split; [assumption|lia].
  - now rewrite Nat.add_assoc.
  - intros _. exact Hlim.
  - cbn [mc_maxtag hmac_desc]. lia.
Qed.
Theorem pbkdf2_sha256 : pbkdf2_hmac_ok hash_sha2_256 32 64 (2 ^ 61) sha256.
Proof. apply pbkdf2_hmac; [apply sha256_computes; lia|exact sha256_is|lia|reflexivity|reflexivity|reflexivity]. Qed.
Theorem pbkdf2_sha512 : pbkdf2_hmac_ok hash_sha2_512 64 128 (2 ^ 125) sha512.
Proof. apply pbkdf2_hmac; [apply sha512_computes; lia|exact sha512_is|lia|reflexivity|reflexivity|reflexivity]. Qed.
Theorem pbkdf2_sha1 : pbkdf2_hmac_ok hash_sha1 20 64 (2 ^ 61) sha1.
Proof. apply pbkdf2_hmac; [apply sha1_computes; lia|exact sha1_is|lia|reflexivity|reflexivity|reflexivity]. Qed.
Theorem pbkdf2_md5 : pbkdf2_hmac_ok hash_md5 16 64 (2 ^ 61) md5.
Proof. apply pbkdf2_hmac; [apply md5_computes; lia|exact md5_is|lia|reflexivity|reflexivity|reflexivity]. Qed.

(** OMAC: the block of a kept object *)
Lemma omac_kept_block c r key n b : bc_create c r key = Ok b -> recreate_ok c b r key -> forall m, mac_kept (omac_desc c) r key n m -> om_block c m = b.
Proof.
  intros Es Rk m K. induction K as [m E|m m' K IH U|m m' K IH E].
  - exact (om_create_block c r key n b m Es E).
  - now rewrite (om_used_block c _ _ U).
  - apply (om_recreate_block c m r key n b m'); [|exact E]. rewrite IH. unfold recreate_ok in Rk. now rewrite Rk.
Qed.
Theorem omac_steady c r key n b F R : key_ok (bc_maxkey c) key -> bc_create c r key = Ok b -> enc_fn c b F -> recreate_ok c b r key -> cmac_poly (bc_bs c) = Some R -> (n <= bc_bs c)%nat ->
  mac_steady (omac_desc c) r key n (at_most (bc_bs c)) (fun _ => True) (cmac (bc_bs c) F R).
Proof.
  intros Hk Es HF Rk HR Hn. assert (L : (0 < length key)%nat) by apply Hk. destruct (omac_computes c r key n b F R Es L HF HR Hn) as [G _]. split; [exact G|].
  intros m K. apply (omac_regives c m r key n b F R); try assumption. rewrite (omac_kept_block c r key n b Es Rk m K). unfold recreate_ok in Rk. now rewrite Rk.
Qed.
