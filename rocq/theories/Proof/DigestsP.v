(** The digests of the hash functions are byte strings of the stated length. *)
From Coq Require Import NArith Arith List Bool Lia.
From Verif Require Import Lib.Word Lib.Res Lib.Bytes Lib.Bij Lib.WordsP Spec.Words Spec.Modes Spec.Hash Spec.Hmac Spec.Sha1 Spec.Md5 Spec.Sha2 Spec.Tiger Spec.Whirlpool Spec.Blake Spec.Keccak
  Model.Keccak Proof.MdCollP Proof.Sha1P Proof.Sha2P Proof.WhirlpoolP Proof.HashCollP Proof.KeccakCoreP Proof.KeccakP.
Import ListNotations.
Local Open Scope N_scope.

Lemma bytes_be_string k l : bytes_ok (be_string k l).
Proof. apply Forall_flat_map. apply Forall_forall. intros x _. apply bytes_be_bytes. Qed.
Lemma bytes_le_string k l : bytes_ok (le_string k l).
Proof. apply Forall_flat_map. apply Forall_forall. intros x _. apply bytes_le_bytes. Qed.
Lemma digests_weaken n n' okm H : digests n okm H -> (n' <= n)%nat -> digests n' okm H.
Proof. intros D L m B O. destruct (D m B O) as [? ?]. split; [assumption|lia]. Qed.
Lemma digests_firstn n k okm H : digests n okm H -> (k <= n)%nat -> digests k okm (fun m => firstn k (H m)).
Proof. intros D L m B O. destruct (D m B O) as [? ?]. split; [now apply bytes_firstn|rewrite firstn_length; lia]. Qed.

Lemma md_digests n okm bs lb first enc c (hok : list N -> Prop) ser iv :
  (0 < lb < bs)%nat -> first < 256 -> (forall x, blk lb (enc lb x)) -> (forall h b, hok h -> blk bs b -> hok (c h b)) -> hok iv ->
  (forall h, hok h -> bytes_ok (ser h) /\ length (ser h) = n) -> digests n okm (fun l => ser (iterate bs c iv (md_pad bs lb first enc l))).
Proof.
  intros Hb Hf He Hc Hiv Hs m Bm _. destruct (Hs (iterate bs c iv (md_pad bs lb first enc m))) as [B L].
  - apply (fold_ok bs c hok Hc); [exact Hiv|]. apply (blocks_blk bs lb first Hb Hf). now apply (MdCollP.pad_bytes bs lb first).
  - split; [exact B|]. now rewrite L.
Qed.
Ltac h0 := split; [reflexivity|]; repeat (constructor; [reflexivity|]); constructor.
Lemma sha2_32_digests n iv okm : length iv = 8%nat -> digests 32 okm (sha2_32 n iv).
Proof.
  intros Hiv. apply (md_digests 32 okm 64 8 0x80 be_bytes (sha2_compress f256 n) (fun h => length h = 8%nat) (be_string 4) iv); try lia; try exact Hiv.
  - intros x. apply blk_be_bytes.
  - intros h b Hh _. now apply (compress_ok f256).
  - intros h Hh. split; [apply bytes_be_string|]. now rewrite length_be_string, Hh.
Qed.
Lemma sha2_64_digests n iv okm : length iv = 8%nat -> digests 64 okm (sha2_64 n iv).
Proof.
  intros Hiv. apply (md_digests 64 okm 128 16 0x80 be_bytes (sha2_compress f512 n) (fun h => length h = 8%nat) (be_string 8) iv); try lia; try exact Hiv.
  - intros x. apply blk_be_bytes.
  - intros h b Hh _. now apply (compress_ok f512).
  - intros h Hh. split; [apply bytes_be_string|]. now rewrite length_be_string, Hh.
Qed.
Lemma sha256_digests okm : digests 32 okm sha256. Proof. apply (sha2_32_digests 64 iv256). reflexivity. Qed.
Lemma sha224_digests okm : digests 28 okm sha224. Proof. apply (digests_firstn 32 28); [|lia]. apply (sha2_32_digests 64 iv224). reflexivity. Qed.
Lemma sha512_digests okm : digests 64 okm sha512. Proof. apply (sha2_64_digests 80 iv512). reflexivity. Qed.
Lemma sha384_digests okm : digests 48 okm sha384. Proof. apply (digests_firstn 64 48); [|lia]. apply (sha2_64_digests 80 iv384). reflexivity. Qed.
Lemma sha1_digests okm : digests 20 okm sha1.
Proof.
  apply (md_digests 20 okm 64 8 0x80 be_bytes _ words5 (be_string 4) sha1_h0); try lia.
  - intros x. apply blk_be_bytes.
  - intros h b Hh Hb. now apply process1_eq.
  - h0.
  - intros h [Hh _]. split; [apply bytes_be_string|]. now rewrite length_be_string, Hh.
Qed.
Lemma md5_digests okm : digests 16 okm md5.
Proof.
  apply (md_digests 16 okm 64 8 0x80 le_bytes _ words4 (le_string 4) md5_h0); try lia.
  - intros x. apply blk_le_bytes.
  - intros h b Hh Hb. now apply process5_eq.
  - h0.
  - intros h [Hh _]. split; [apply bytes_le_string|]. now rewrite length_le_string, Hh.
Qed.
Lemma tiger_digests okm p : digests 24 okm (tiger p).
Proof.
  apply (md_digests 24 okm 64 8 0x01 le_bytes _ words3 (le_string 8) tiger_h0); try lia.
  - intros x. apply blk_le_bytes.
  - intros h b. apply tiger_words.
  - h0.
  - intros h [Hh _]. split; [apply bytes_le_string|]. now rewrite length_le_string, Hh.
Qed.
Lemma whirlpool_digests okm n : (n <= 10)%nat -> digests 64 okm (whirlpool n).
Proof.
  intros Hn. apply (md_digests 64 okm 64 32 0x80 be_bytes _ (blk 64) (fun h => h) (repeat 0 64)); try lia.
  - intros x. apply blk_be_bytes.
  - intros h b Hh Hb. now apply whirlpool_blk.
  - split; [reflexivity|]. apply Forall_forall. intros x Hx. apply repeat_spec in Hx. now subst.
  - intros h [Hh Hb]. split; [exact Hb|exact Hh].
Qed.

(** ** the sponges *)
Lemma nth_byte l i : bytes_ok l -> nth i l 0 < 256.
Proof.
  intros H. destruct (Nat.lt_ge_cases i (length l)) as [L|L]; [exact (proj1 (Forall_nth _ _) H i 0 L)|]. now rewrite nth_overflow.
Qed.
Lemma sponge_digests okm f b rate dom n : (0 < rate)%nat -> dom < 128 -> (forall s, blk b s -> blk b (f s)) -> digests n okm (sponge f b rate dom n).
Proof.
  intros Hr Hd Hf m Bm _. unfold sponge, squeeze. split; [|rewrite map_length, seq_length; lia].
  assert (BP : bytes_ok (keccak_pad rate dom m)).
  { unfold keccak_pad. apply bytes_app. split; [exact Bm|]. destruct (_ =? 1)%nat.
    - constructor; [lia|constructor].
    - constructor; [lia|]. apply bytes_app. split; [|now constructor]. apply Forall_forall. intros x Hx. apply repeat_spec in Hx. now subst. }
  assert (A : blk b (absorb f rate (repeat 0 b) (keccak_pad rate dom m))).
  { unfold absorb. assert (BB : Forall bytes_ok (blocks rate (keccak_pad rate dom m))).
    { apply Forall_forall. intros x Hx. unfold blocks in Hx. apply in_map_iff in Hx. destruct Hx as (i & <- & _). unfold block. now apply bytes_slice. }
    assert (B0 : blk b (repeat 0 b)). { split; [apply repeat_length|]. apply Forall_forall. intros x Hx. apply repeat_spec in Hx. now subst. }
    revert B0. generalize (repeat 0 b). induction BB as [|x t Hx _ IH]; intros S BS; [exact BS|]. cbn [fold_left]. apply IH. apply Hf.
    unfold xor_in. split; [rewrite map_length, seq_length; apply BS|]. apply Forall_forall. intros y Hy. apply in_map_iff in Hy. destruct Hy as (i & <- & _).
    apply (inw_lxor 8); apply nth_byte; [apply BS|exact Hx]. }
  apply Forall_forall. intros y Hy. apply in_map_iff in Hy. destruct Hy as (i & <- & _). apply nth_byte.
  assert (I : forall k, blk b (Nat.iter k f (absorb f rate (repeat 0 b) (keccak_pad rate dom m)))) by (induction k as [|k IH]; [exact A|cbn; now apply Hf]). apply I.
Qed.
Lemma f1600_blk r s : r <= 48 -> blk 200 s -> blk 200 (keccak_bytes 8 (round_constant 64) (N.to_nat (rounds_of 24 r)) s).
Proof. intros Hr [L B]. destruct (F1600_rounds r Hr s L B) as (_ & L' & B'). split; assumption. Qed.
Lemma f800_blk r s : r <= 40 -> blk 100 s -> blk 100 (keccak_bytes 4 folded_constant (N.to_nat (rounds_of 20 r)) s).
Proof. intros Hr [L B]. destruct (F800_rounds r Hr s L B) as (_ & L' & B'). split; assumption. Qed.

(** ** BLAKE and BLAKE2 *)
Lemma length_mixing F v a b c d x y : length (mixing F v a b c d x y) = length v.
Proof. unfold mixing. destruct (bl_rot F) as [[[r1 r2] r3] r4]. now rewrite !length_upd. Qed.
Lemma length_mix_round F add v r : length (mix_round F add v r) = length v.
Proof.
  unfold mix_round. cbn [seq fold_left]. now rewrite !length_mixing.
Qed.
Lemma length_mix_rounds F add l : forall v, length (fold_left (mix_round F add) l v) = length v.
Proof. induction l as [|r l IH]; intros v; [reflexivity|]. cbn [fold_left]. now rewrite IH, length_mix_round. Qed.
Lemma length_xor_words a b : length (xor_words a b) = Nat.min (length a) (length b).
Proof. unfold xor_words. now rewrite map_length, combine_length. Qed.
Lemma blake_compress_len F rounds s h b t : length h = 8%nat -> length s = 4%nat -> length (blake_compress F rounds s h b t) = 8%nat.
Proof.
  intros Lh Ls. unfold blake_compress. cbv zeta. rewrite !length_xor_words, skipn_length, firstn_length, length_mix_rounds, !app_length, length_xor_words, !app_length, firstn_length, Lh, Ls.
  unfold pi_words. rewrite map_length, seq_length. reflexivity.
Qed.
Lemma blake_chain_len F zero rounds s iv last l : length iv = 8%nat -> length s = 4%nat -> length (blake_chain F zero rounds s iv last l) = 8%nat.
Proof.
  intros Li Ls. unfold blake_chain. cbv zeta. revert Li. generalize iv. induction (seq 0 _) as [|i t IH]; intros h Lh; [exact Lh|]. cbn [fold_left]. apply IH. now apply blake_compress_len.
Qed.
Lemma blake2_compress_len F rounds iv h b t final : length h = 8%nat -> length iv = 8%nat -> length (blake2_compress F rounds iv h b t final) = 8%nat.
Proof.
  intros Lh Li. unfold blake2_compress. cbv zeta. rewrite !length_xor_words, skipn_length, firstn_length, length_mix_rounds, !app_length, length_xor_words, Lh, Li. reflexivity.
Qed.
Lemma blake2_chain_len F dd rounds iv h0 l : length iv = 8%nat -> length h0 = 8%nat -> length (blake2_chain F dd rounds iv h0 l) = 8%nat.
Proof.
  intros Li Lh. unfold blake2_chain. cbv zeta. apply blake2_compress_len; [|exact Li]. revert Lh. generalize h0. induction (seq 0 _) as [|i t IH]; intros h Lh; [exact Lh|]. cbn [fold_left]. apply IH. now apply blake2_compress_len.
Qed.
Lemma length_salt_words k salt : length (salt_words k salt) = 4%nat.
Proof. unfold salt_words, be_words. now rewrite map_length, seq_length. Qed.
Lemma blake256_digests okm z rounds salt n : digests 32 okm (blake256_r z rounds salt n).
Proof.
  intros m _ _. unfold blake256_r. split; [apply bytes_be_string|]. rewrite length_be_string, blake_chain_len; [lia|now destruct (28 <? n)%nat|apply length_salt_words].
Qed.
Lemma blake512_digests okm z rounds salt n : digests 64 okm (blake512_r z rounds salt n).
Proof.
  intros m _ _. unfold blake512_r. split; [apply bytes_be_string|]. rewrite length_be_string, blake_chain_len; [lia|now destruct (48 <? n)%nat|apply length_salt_words].
Qed.
Lemma blake2_start_len F iv salt n : length iv = 8%nat -> length (blake2_start F iv salt n) = 8%nat.
Proof. intros Li. unfold blake2_start. cbv zeta. rewrite length_xor_words, Li. reflexivity. Qed.
Lemma blake2s_digests okm dd rounds salt n : digests 32 okm (blake2s_r dd rounds salt n).
Proof.
  intros m _ _. unfold blake2s_r. split; [apply bytes_le_string|]. rewrite length_le_string, blake2_chain_len; [lia|reflexivity|now apply blake2_start_len].
Qed.
Lemma blake2b_digests okm dd rounds salt n : digests 64 okm (blake2b_r dd rounds salt n).
Proof.
  intros m _ _. unfold blake2b_r. split; [apply bytes_le_string|]. rewrite length_le_string, blake2_chain_len; [lia|reflexivity|now apply blake2_start_len].
Qed.
