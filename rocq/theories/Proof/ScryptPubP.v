(** scrypt over PBKDF2-HMAC. *)
From Coq Require Import NArith Arith List Bool Lia ZifyBool.
From Verif Require Import Lib.Word Lib.Res Lib.Bytes Lib.XorBytes Spec.Words Spec.Modes Spec.Hmac Spec.Kdf Model.HashApi Model.MacApi Model.Hmac Model.Sha2 Model.Kdf Spec.Sha2 Proof.ScryptP Proof.Pbkdf2P Proof.Pbkdf2PubP.
Import ListNotations.
Local Open Scope nat_scope.

Lemma key_ok h prf c salt len : is_digest h prf -> 0 < h -> bytes_ok salt -> length (pbkdf2_key prf h c salt len) = len /\ bytes_ok (pbkdf2_key prf h c salt len).
Proof.
  intros D Hh Bs. assert (Su : forall k u, bytes_ok u -> length u = h -> bytes_ok (pb_sum prf k u) /\ length (pb_sum prf k u) = h).
  { induction k as [|k IH]; intros u Bu Lu; [now split|]. cbn [pb_sum]. destruct (D u Bu) as [B1 L1]. destruct (IH _ B1 L1) as [B2 L2]. split; [now apply bytes_xor|rewrite length_xor; lia]. }
  assert (Bl : forall i, bytes_ok (pb_block prf c salt i) /\ length (pb_block prf c salt i) = h).
  { intros i. unfold pb_block. assert (X : bytes_ok (salt ++ be_bytes 4 (N.of_nat i))) by (apply Forall_app; split; [exact Bs|apply bytes_be_bytes]). destruct (D _ X). now apply Su. }
  unfold pbkdf2_key. split.
  - rewrite firstn_length. assert (Lc : forall n s, length (concat (map (pb_block prf c salt) (seq s n))) = h * n).
    { induction n as [|n IH]; intros s; [cbn; lia|]. cbn [seq map concat]. rewrite app_length, IH, (proj2 (Bl s)). lia. }
    rewrite Lc. unfold pb_blocks. assert (X := Nat.div_mod (len + h - 1) h ltac:(lia)). assert (Y := Nat.mod_upper_bound (len + h - 1) h ltac:(lia)). lia.
  - apply bytes_firstn. generalize (seq 1 (pb_blocks h len)). induction l as [|i l IH]; [constructor|]. cbn [map concat]. apply Forall_app. split; [apply Bl|exact IH].
Qed.

Lemma parts_ok r a e bits b0 : 0 < r -> a <> e -> (bits <= 64)%N -> bytes_ok b0 -> forall p w, length b0 = 128 * r * p -> 32 * r * Nat.max (N.to_nat (2 ^ bits)) (Nat.max (S a) (S e)) <= length w ->
  (forall j, In j (concat (map (fun i => ro_draws r (2 ^ bits) (slice (128 * r * i) (128 * r) b0)) (seq 0 p))) -> j <> a /\ j <> e) ->
  forall k, k <= p -> exists w', mfor k 0 (sc_part (32 * r * a) (32 * r * e) (2 ^ bits) r) (b0, w) =
    Ok (concat (map (fun i => ro_mix r (2 ^ bits) (slice (128 * r * i) (128 * r) b0)) (seq 0 k)) ++ skipn (128 * r * k) b0, w') /\ length w' = length w /\
    length (concat (map (fun i => ro_mix r (2 ^ bits) (slice (128 * r * i) (128 * r) b0)) (seq 0 k))) = 128 * r * k /\
    bytes_ok (concat (map (fun i => ro_mix r (2 ^ bits) (slice (128 * r * i) (128 * r) b0)) (seq 0 k))).
Proof.
  intros Hr Hae Hb B0 p w L0 Hw Hd. induction k as [|k IH]; intros Hk.
  - exists w. rewrite Nat.mul_0_r. split; [reflexivity|]. split; [reflexivity|]. split; [reflexivity|constructor].
  - destruct (IH ltac:(lia)) as (w1 & E & L1 & Lc & Bc). rewrite mfor_S, E. cbn [bind Nat.add]. unfold sc_part. cbn [fst snd].
    set (done := concat (map (fun i => ro_mix r (2 ^ bits) (slice (128 * r * i) (128 * r) b0)) (seq 0 k))) in *.
    assert (Hlen : 128 * r * k + 128 * r <= length b0). { assert (128 * r * S k <= 128 * r * p) by (apply Nat.mul_le_mono_l; lia). lia. }
    assert (Ein : firstn (128 * r) (skipn (128 * r * k) (done ++ skipn (128 * r * k) b0)) = slice (128 * r * k) (128 * r) b0).
    { rewrite skipn_app, Lc, skipn_all2 by lia. rewrite Nat.sub_diag. reflexivity. }
    rewrite Ein. destruct (smix_ok r a e bits (slice (128 * r * k) (128 * r) b0) w1 Hr Hae) as (w2 & E2 & L2 & Lm & Bm).
    { rewrite L1. exact Hw. }
    { exact Hb. }
    { now apply bytes_slice. }
    { apply length_slice. lia. }
    { intros j Hj. apply Hd. apply in_concat. exists (ro_draws r (2 ^ bits) (slice (128 * r * k) (128 * r) b0)). split; [|exact Hj]. apply in_map_iff. exists k. split; [reflexivity|]. apply in_seq. lia. }
    rewrite E2. cbn [bind fst snd]. rewrite put_ok by (rewrite app_length, Lc, Lm, skipn_length; lia). cbn [bind]. exists w2.
    rewrite seq_S, map_app, concat_app. cbn [map concat Nat.add]. rewrite app_nil_r. fold done. split; [|split; [lia|split]].
    + f_equal. f_equal. unfold splice. rewrite Lm. rewrite firstn_app, Lc, Nat.sub_diag, firstn_O, app_nil_r, firstn_all2 by lia. rewrite <- app_assoc. f_equal. f_equal.
      rewrite skipn_app, Lc, skipn_all2 by lia. cbn [app]. rewrite skipn_skipn. f_equal. lia.
    + rewrite app_length, Lc, Lm. lia.
    + apply Forall_app. now split.
Qed.

(** [k] is the length of a digest *)
Theorem scrypt_at_ok d k B lim H a e bits r p pass salt len junk : pbkdf2_hmac_ok d k B lim H -> is_digest k H -> 0 < k <= 128 ->
  bytes_ok pass -> 0 < length pass -> (N.of_nat (length pass) < lim)%N -> bytes_ok salt -> (N.of_nat (B + length salt + 4) < lim)%N -> (N.of_nat (B + 128 * r * p + 4) < lim)%N ->
  0 < r -> 0 < p -> (bits <= 64)%N -> (128 * N.of_nat r * N.of_nat p < 2 ^ 32)%N -> k <= len -> (N.of_nat (pb_blocks k len) < 2 ^ 32)%N ->
  a <> e -> 32 * r * Nat.max (N.to_nat (2 ^ bits)) (Nat.max (S a) (S e)) <= length junk ->
  (forall j, In j (scrypt_draws (hmac B H pass) k (2 ^ bits) r p salt) -> j <> a /\ j <> e) ->
  scrypt_at (32 * r * a) (32 * r * e) (hmac_desc d) 0 (2 ^ bits) r p pass salt len junk = Ok (scrypt_key (hmac B H pass) k (2 ^ bits) r p salt len).
Proof.
  intros PB D Hk Bp Lp Lp' Bs Ls Lb Hr Hp Hb Hsz Hlen Hblk Hae Hj Hd. unfold scrypt_at. destruct (N.leb_spec (2 ^ 32) (128 * N.of_nat r * N.of_nat p)) as [X|_]; [lia|].
  assert (Hrp : 128 <= 128 * r * p). { assert (1 <= r * p) by (apply (Nat.mul_le_mono 1 r 1 p); lia). lia. }
  assert (Hm := hmac_is k B H pass D Bp).
  rewrite PB; try assumption; [|reflexivity|lia|].
  2:{ unfold pb_blocks. apply N.le_lt_trans with (m := N.of_nat (128 * r * p)); [|lia]. enough ((128 * r * p + k - 1) / k <= 128 * r * p) by lia.
      apply Nat.div_le_upper_bound; [lia|]. destruct k; [lia|]. set (q := 128 * r * p) in *. clearbody q. assert (q * 1 <= q * S k) by (apply Nat.mul_le_mono_l; lia). destruct q; [lia|]. cbn [Nat.mul]. assert (k * 1 <= k * S q) by (apply Nat.mul_le_mono_l; lia). lia. }
  cbn [bind]. set (b := pbkdf2_key (hmac B H pass) k 1 salt (128 * r * p)) in *. destruct (key_ok k (hmac B H pass) 1 salt (128 * r * p) Hm ltac:(lia) Bs) as [Lkey Bkey]. fold b in Lkey, Bkey.
  unfold scrypt_draws in Hd. fold b in Hd. destruct (parts_ok r a e bits b Hr Hae Hb Bkey p junk Lkey Hj Hd p (le_n _)) as (w' & E & _ & Lc & Bc). rewrite E. cbn [bind fst].
  rewrite skipn_all2 by lia. rewrite app_nil_r. rewrite PB; try assumption; [reflexivity| |reflexivity]. rewrite Lc. exact Lb.
Qed.
(** The layout of the code: t1 is block 1 and t2 block 2 *)
Theorem scrypt_sha256 bits r p pass salt len junk :
  bytes_ok pass -> 0 < length pass -> (N.of_nat (length pass) < 2 ^ 61)%N -> bytes_ok salt -> (N.of_nat (length salt) < 2 ^ 60)%N ->
  0 < r -> 0 < p -> (bits <= 64)%N -> (128 * N.of_nat r * N.of_nat p < 2 ^ 32)%N -> 32 <= len -> (N.of_nat (pb_blocks 32 len) < 2 ^ 32)%N -> length junk = scrypt_room (2 ^ bits) r ->
  (forall j, In j (scrypt_draws (hmac 64 sha256 pass) 32 (2 ^ bits) r p salt) -> j <> 1 /\ j <> 2) ->
  scrypt (hmac_desc hash_sha2_256) 0 (2 ^ bits) r p pass salt len junk = Ok (scrypt_key (hmac 64 sha256 pass) 32 (2 ^ bits) r p salt len).
Proof.
  intros Bp Lp Lp' Bs Ls Hr Hp Hb Hsz Hlen Hblk Hj Hd. unfold scrypt. replace (32 * r + 32 * r) with (32 * r * 2) by lia. replace (32 * r) with (32 * r * 1) at 1 by lia.
  apply (scrypt_at_ok hash_sha2_256 32 64 (2 ^ 61)); try assumption; try lia; try exact pbkdf2_sha256; try exact sha256_is.
  rewrite Hj. unfold scrypt_room. assert (1 <= N.to_nat (2 ^ bits)) by (assert (X := N.pow_nonzero 2 bits ltac:(discriminate)); lia).
  replace (32 * r * N.to_nat (2 ^ bits) + 64 * r) with (32 * r * (N.to_nat (2 ^ bits) + 2)) by lia. apply Nat.mul_le_mono_l. lia.
Qed.
(** ... and t1 and t2 after the saved blocks *)
Theorem scrypt_repaired bits r p pass salt len junk :
  bytes_ok pass -> 0 < length pass -> (N.of_nat (length pass) < 2 ^ 61)%N -> bytes_ok salt -> (N.of_nat (length salt) < 2 ^ 60)%N ->
  0 < r -> 0 < p -> (bits <= 64)%N -> (128 * N.of_nat r * N.of_nat p < 2 ^ 32)%N -> 32 <= len -> (N.of_nat (pb_blocks 32 len) < 2 ^ 32)%N -> length junk = scrypt_room (2 ^ bits) r ->
  scrypt_at (32 * r * N.to_nat (2 ^ bits)) (32 * r * S (N.to_nat (2 ^ bits))) (hmac_desc hash_sha2_256) 0 (2 ^ bits) r p pass salt len junk =
  Ok (scrypt_key (hmac 64 sha256 pass) 32 (2 ^ bits) r p salt len).
Proof.
  intros Bp Lp Lp' Bs Ls Hr Hp Hb Hsz Hlen Hblk Hj. set (n := N.to_nat (2 ^ bits)).
  apply (scrypt_at_ok hash_sha2_256 32 64 (2 ^ 61)); try assumption; try lia; try exact pbkdf2_sha256; try exact sha256_is.
  - rewrite Hj. unfold scrypt_room. fold n. replace (32 * r * n + 64 * r) with (32 * r * (n + 2)) by lia. apply Nat.mul_le_mono_l. lia.
  - intros j Hd. enough (j < n) by lia. unfold scrypt_draws in Hd. apply in_concat in Hd. destruct Hd as (l & Hl & Hjl). apply in_map_iff in Hl. destruct Hl as (i & <- & _).
    unfold ro_draws in Hjl. revert Hjl. generalize (snd (mix_save r (N.to_nat (2 ^ bits)) (slice (128 * r * i) (128 * r) (pbkdf2_key (hmac 64 sha256 pass) 32 1 salt (128 * r * p))))).
    generalize (fst (mix_save r (N.to_nat (2 ^ bits)) (slice (128 * r * i) (128 * r) (pbkdf2_key (hmac 64 sha256 pass) 32 1 salt (128 * r * p))))). intros v x. generalize (N.to_nat (2 ^ bits)) at 1. intros m. revert x.
    induction m as [|m IH]; intros x Hm; [destruct Hm|]. cbn [mix_draws] in Hm. cbv zeta in Hm. destruct Hm as [<-|Hm]; [|now apply (IH _ Hm)].
    unfold integerify, n. assert (N0 : (2 ^ bits <> 0)%N) by (apply N.pow_nonzero; discriminate). assert (M := N.mod_lt (le_val (slice (64 * (2 * r - 1)) 64 x)) (2 ^ bits) N0). lia.
Qed.
