(** What the code of scrypt computes, also when the saved blocks in which the working areas lie are used. *)
From Coq Require Import NArith Arith List Bool Lia ZifyBool.
From Verif Require Import Lib.Word Lib.Res Lib.Bytes Lib.XorBytes Lib.Lists Lib.WordSpec Model.LoadStore Proof.LoadStoreP Spec.Words Spec.Modes Spec.Chacha Spec.Salsa20 Spec.Hmac Spec.Kdf Spec.ScryptOver
  Model.HashApi Model.MacApi Model.Hmac Model.Chacha Model.Salsa20 Model.Kdf Proof.ChachaP Proof.Salsa20P Proof.CbcMacP Proof.IdeaPubP Proof.ScryptP Proof.Pbkdf2P Proof.Pbkdf2PubP Proof.ScryptPubP.
Import ListNotations.
Local Open Scope nat_scope.

Lemma before_words r X : 0 < r -> words_ok 32 X -> length X = 32 * r -> mix_before r (le_string 4 X) = le_string 4 (concat (wy r X)).
Proof.
  intros Hr W L. unfold mix_before. rewrite le_string_concat. f_equal. unfold wy. rewrite <- mix_chain_words.
  - f_equal.
    + rewrite <- le_string_slice. f_equal. lia.
    + unfold blocks64. rewrite map_map. apply map_ext. intros i. rewrite <- le_string_slice. f_equal. lia.
  - apply slice_st; [exact W|lia].
  - apply Forall_forall. intros b Hb. apply in_map_iff in Hb. destruct Hb as (i & <- & Hi). apply in_seq in Hi. apply slice_st; [exact W|lia].
Qed.
Lemma before_ok r X : 0 < r -> words_ok 32 X -> length X = 32 * r -> words_ok 32 (concat (wy r X)) /\ length (concat (wy r X)) = 32 * r.
Proof.
  intros Hr W L. rewrite <- (map_nth_seq (wy r X) (2 * r) [] (eq_sym (wy_len r X))). destruct (concat_st (fun i => nth i (wy r X) []) (2 * r)) as [A B]; [intros; now apply wy_nth_ok|].
  split; [exact A|]. rewrite B. lia.
Qed.

Section Smix.
  Variables (r a e : nat) (n : N) (len : nat).
  Hypotheses (Hr : 0 < r) (Hae : a <> e) (Hl : 32 * r * Nat.max (N.to_nat n) (Nat.max (S a) (S e)) <= len).
  Let B := 32 * r.
  Variable X : list N.
  Hypotheses (WX : words_ok 32 X) (LX : length X = B).
  Let V i := iterf i (wmix r) X.
  Let Vok i : words_ok 32 (V i) /\ length (V i) = B := iter_wmix_ok r i X Hr WX LX.
  Let Hin := block_in r a e n len Hr Hae Hl.
  Let vs := map (fun i => le_string 4 (V i)) (seq 0 (N.to_nat n)).

  Lemma fill_full w k : length w = len -> at_block r a w = X -> k <= N.to_nat n ->
    exists w', mfor k 0 (sc_fill r 0 (B * a) (B * e)) w = Ok w' /\ length w' = len /\ at_block r a w' = V k /\
      (0 < k -> at_block r e w' = concat (wy r (V (k - 1)))) /\ forall j, j < k -> j <> a -> j <> e -> at_block r j w' = V j.
  Proof.
    intros L Ea. induction k as [|k IH]; intros Hk.
    - exists w. split; [reflexivity|]. split; [exact L|]. split; [exact Ea|]. split; intros; lia.
    - destruct (IH ltac:(lia)) as (w1 & E & L1 & A1 & _ & Fr). rewrite mfor_S, E. cbn [bind Nat.add]. unfold sc_fill at 1. fold B. cbn [Nat.add]. rewrite get_slice by (rewrite L1; apply Hin; lia). cbn [bind]. change (slice (B * a) B w1) with (at_block r a w1). rewrite A1.
      destruct (Vok k) as [Wk Lk]. destruct (put_at r a e n len Hr Hae Hl w1 k (V k) L1 ltac:(lia) Lk) as (w2 & E2 & L2 & A2 & Fr2). fold B in E2. rewrite E2. cbn [bind].
      assert (Aa : at_block r a w2 = V k). { destruct (Nat.eq_dec k a) as [<-|Z]; [exact A2|]. rewrite Fr2 by lia. exact A1. }
      destruct (mix_full r a e n len Hr Hae Hl w2 L2 ltac:(rewrite Aa; exact Wk)) as (w3 & E3 & L3 & A3 & T3 & Fr3). exists w3. split; [exact E3|]. split; [exact L3|]. split; [rewrite A3, Aa; reflexivity|].
      split; [intros _; rewrite T3, Aa; f_equal; f_equal; f_equal; lia|].
      intros j Hj Ja Je. rewrite Fr3 by lia. destruct (Nat.eq_dec j k) as [->|Z]; [exact A2|]. rewrite Fr2 by lia. apply Fr; lia.
  Qed.
  Variable bits : N.
  Hypotheses (Hn : n = (2 ^ bits)%N) (Hbits : (bits <= 64)%N).
  Lemma use_full w k : forall i x t, length w = len -> at_block r a w = x -> words_ok 32 x -> at_block r e w = t -> words_ok 32 t ->
    (forall j, j < N.to_nat n -> j <> a -> j <> e -> at_block r j w = V j) ->
    exists w' y, mfor k i (fun _ => sc_use r n 0 (B * a) (B * e)) w = Ok w' /\ length w' = len /\ at_block r a w' = y /\ length y = B /\
      over_use a e r n vs k (le_string 4 x) (le_string 4 t) = le_string 4 y.
  Proof.
    revert w. induction k as [|k IH]; intros w i x t L Ea Wx Et Wt Fr.
    - exists w, x. split; [reflexivity|]. split; [exact L|]. split; [exact Ea|]. split; [|reflexivity]. rewrite <- Ea. apply (at_len r a e n len Hr Hae Hl); [exact L|lia].
    - assert (Lx : length x = B) by (rewrite <- Ea; apply (at_len r a e n len Hr Hae Hl); [exact L|lia]). assert (Ia := Hin a ltac:(lia)). assert (PB : 16 < B) by (unfold B; lia).
      assert (Lt : length t = B) by (rewrite <- Et; apply (at_len r a e n len Hr Hae Hl); [exact L|lia]).
      cbn [mfor]. unfold sc_use at 1. fold B. fold B in Ia. rewrite (get_ok w (B * a + B - 15) 0%N) by lia. rewrite (get_ok w (B * a + B - 16) 0%N) by lia. cbn [bind].
      assert (Eh : nth (B * a + B - 15) w 0%N = nth (B - 15) x 0%N) by (rewrite <- Ea; unfold at_block; fold B; rewrite nth_slice by lia; f_equal; lia).
      assert (El : nth (B * a + B - 16) w 0%N = nth (B - 16) x 0%N) by (rewrite <- Ea; unfold at_block; fold B; rewrite nth_slice by lia; f_equal; lia).
      rewrite Eh, El. clear Eh El. cbv zeta. rewrite (get_slice w (B * a) B) by lia. cbn [bind]. change (slice (B * a) B w) with (at_block r a w). rewrite Ea.
      assert (Ei := integerify_words r a e n len Hr Hae Hl X LX bits Hn Hbits x Wx Lx). fold B in Ei. set (tn := integerify r (le_string 4 x) n) in *. rewrite <- Ei.
      assert (Ht : tn < N.to_nat n).
      { assert (N0 : n <> 0%N) by (rewrite Hn; apply N.pow_nonzero; discriminate). unfold tn, integerify. assert (M := N.mod_lt (le_val (slice (64 * (2 * r - 1)) 64 (le_string 4 x))) n N0). lia. }
      cbn [Nat.add]. rewrite (get_slice w (B * tn) B) by (rewrite L; apply Hin; lia). cbn [bind]. change (slice (B * tn) B w) with (at_block r tn w).
      assert (S : exists z, at_block r tn w = z /\ words_ok 32 z /\ length z = B /\ over_saved a e vs (le_string 4 x) (le_string 4 t) tn = le_string 4 z).
      { unfold over_saved. destruct (Nat.eqb_spec tn a) as [->|Ta]; [exists x; repeat split; assumption|]. destruct (Nat.eqb_spec tn e) as [->|Te]; [exists t; repeat split; assumption|].
        exists (V tn). split; [now apply Fr|]. split; [apply Vok|]. split; [apply Vok|]. unfold vs. now rewrite nth_map_seq. }
      destruct S as (z & -> & Wz & Lz & Ez). rewrite xor_words_bytes. assert (Lxv : length (xor_bytes x z) = B) by (rewrite length_xor, Lx, Lz; apply Nat.min_id).
      destruct (put_at r a e n len Hr Hae Hl w a (xor_bytes x z) L ltac:(lia) Lxv) as (w2 & E2 & L2 & A2 & Fr2). fold B in E2. rewrite E2. cbn [bind].
      assert (Wxv : words_ok 32 (xor_bytes x z)) by (now apply xor_words_ok).
      destruct (mix_full r a e n len Hr Hae Hl w2 L2 ltac:(rewrite A2; exact Wxv)) as (w3 & E3 & L3 & A3 & T3 & Fr3). fold B in E3. rewrite E3. cbn [bind]. rewrite A2 in A3, T3.
      destruct (wmix_ok r _ Hr Wxv Lxv) as [W3 L3']. destruct (before_ok r _ Hr Wxv Lxv) as [W4 L4].
      destruct (IH w3 (S i) _ _ L3 A3 W3 T3 W4) as (w' & y & E & L' & A' & Ly & U).
      { intros j Hj Ja Je. rewrite Fr3 by lia. rewrite Fr2 by lia. now apply Fr. }
      exists w', y. split; [exact E|]. split; [exact L'|]. split; [exact A'|]. split; [exact Ly|]. cbn [over_use]. cbv zeta. fold tn. rewrite Ez, <- le_string_xor by congruence.
      rewrite (block_mix_words r _ Hr Wxv Lxv), (before_words r _ Hr Wxv Lxv). exact U.
  Qed.
End Smix.

Lemma last_map_seq {A} (f : nat -> A) n d : 0 < n -> last (map f (seq 0 n)) d = f (n - 1).
Proof. destruct n as [|n]; [lia|]. intros _. rewrite seq_S, map_app. cbn [map Nat.add]. rewrite last_last. f_equal. lia. Qed.
Theorem smix_over r a e bits b w : 0 < r -> a <> e -> 32 * r * Nat.max (N.to_nat (2 ^ bits)) (Nat.max (S a) (S e)) <= length w -> (bits <= 64)%N ->
  bytes_ok b -> length b = 128 * r ->
  exists w', sc_smix b r (2 ^ bits) 0 (32 * r * a) (32 * r * e) w = Ok (over_mix a e r (2 ^ bits) b, w') /\ length w' = length w /\
    length (over_mix a e r (2 ^ bits) b) = 128 * r /\ bytes_ok (over_mix a e r (2 ^ bits) b).
Proof.
  intros Hr Hae Hl Hb Bb Lb. assert (Hn : 0 < N.to_nat (2 ^ bits)) by (assert (X := N.pow_nonzero 2 bits ltac:(discriminate)); lia). set (n := (2 ^ bits)%N) in *. set (X := le_words 4 (32 * r) b).
  assert (WX : words_ok 32 X) by (now apply le_words_ok). assert (LX : length X = 32 * r) by apply length_le_words.
  assert (Ex : le_string 4 X = b).
  { assert (Q : stores store32l (loads load32l 4 (32 * r) b) = b) by (apply (stores_loads codec32l); split; [lia|assumption]). rewrite loads32l_le, zero_pad_full, stores32l_le in Q by (try assumption; lia). exact Q. }
  unfold sc_smix. rewrite loads32l_le by (try assumption; lia). rewrite zero_pad_full by lia. fold X.
  destruct (put_at r a e n (length w) Hr Hae Hl w a X eq_refl ltac:(lia) LX) as (w0 & E0 & L0 & A0 & _). rewrite E0. cbn [bind].
  destruct (fill_full r a e n (length w) Hr Hae Hl X WX LX w0 (N.to_nat n) L0 A0 (le_n _)) as (w1 & E1 & L1 & A1 & T1 & Fr1). rewrite E1. cbn [bind].
  assert (Sv := mix_save_words r Hr (N.to_nat n) X WX LX). rewrite Ex in Sv.
  destruct (iter_wmix_ok r (N.to_nat n) X Hr WX LX) as [Wn Ln]. destruct (iter_wmix_ok r (N.to_nat n - 1) X Hr WX LX) as [Wm Lm]. destruct (before_ok r _ Hr Wm Lm) as [Wt Lt].
  destruct (use_full r a e n (length w) Hr Hae Hl X WX LX bits eq_refl Hb w1 (N.to_nat n) 0 _ _ L1 A1 Wn (T1 Hn) Wt Fr1) as (w2 & y & E2 & L2 & A2 & Ly & U).
  rewrite E2. cbn [bind]. rewrite get_slice by (rewrite L2; apply (block_in r a e n (length w) Hr Hae Hl); lia). cbn [bind]. fold (at_block r a w2). rewrite A2. exists w2.
  assert (Er : over_mix a e r n b = le_string 4 y).
  { unfold over_mix. rewrite Sv. cbn [fst snd]. rewrite last_map_seq by exact Hn. rewrite before_words by assumption. exact U. }
  rewrite stores32l_le, Er. split; [reflexivity|]. split; [exact L2|]. split; [rewrite length_le_string; lia|apply bytes_le_string].
Qed.

Lemma parts_over r a e bits b0 : 0 < r -> a <> e -> (bits <= 64)%N -> bytes_ok b0 -> forall p w, length b0 = 128 * r * p -> 32 * r * Nat.max (N.to_nat (2 ^ bits)) (Nat.max (S a) (S e)) <= length w ->
  forall k, k <= p -> exists w', mfor k 0 (sc_part (32 * r * a) (32 * r * e) (2 ^ bits) r) (b0, w) =
    Ok (concat (map (fun i => over_mix a e r (2 ^ bits) (slice (128 * r * i) (128 * r) b0)) (seq 0 k)) ++ skipn (128 * r * k) b0, w') /\ length w' = length w /\
    length (concat (map (fun i => over_mix a e r (2 ^ bits) (slice (128 * r * i) (128 * r) b0)) (seq 0 k))) = 128 * r * k /\
    bytes_ok (concat (map (fun i => over_mix a e r (2 ^ bits) (slice (128 * r * i) (128 * r) b0)) (seq 0 k))).
Proof.
  intros Hr Hae Hb B0 p w L0 Hw. induction k as [|k IH]; intros Hk.
  - exists w. rewrite Nat.mul_0_r. split; [reflexivity|]. split; [reflexivity|]. split; [reflexivity|constructor].
  - destruct (IH ltac:(lia)) as (w1 & E & L1 & Lc & Bc). rewrite mfor_S, E. cbn [bind Nat.add]. unfold sc_part. cbn [fst snd].
    set (done := concat (map (fun i => over_mix a e r (2 ^ bits) (slice (128 * r * i) (128 * r) b0)) (seq 0 k))) in *.
    assert (Hlen : 128 * r * k + 128 * r <= length b0). { assert (128 * r * S k <= 128 * r * p) by (apply Nat.mul_le_mono_l; lia). lia. }
    assert (Ein : firstn (128 * r) (skipn (128 * r * k) (done ++ skipn (128 * r * k) b0)) = slice (128 * r * k) (128 * r) b0).
    { rewrite skipn_app, Lc, skipn_all2 by lia. rewrite Nat.sub_diag. reflexivity. }
    rewrite Ein. destruct (smix_over r a e bits (slice (128 * r * k) (128 * r) b0) w1 Hr Hae) as (w2 & E2 & L2 & Lm & Bm).
    { rewrite L1. exact Hw. }
    { exact Hb. }
    { now apply bytes_slice. }
    { apply length_slice. lia. }
    rewrite E2. cbn [bind fst snd]. rewrite put_ok by (rewrite app_length, Lc, Lm, skipn_length; lia). cbn [bind]. exists w2.
    rewrite seq_S, map_app, concat_app. cbn [map concat Nat.add]. rewrite app_nil_r. fold done. split; [|split; [lia|split]].
    + f_equal. f_equal. unfold splice. rewrite Lm. rewrite firstn_app, Lc, Nat.sub_diag, firstn_O, app_nil_r, firstn_all2 by lia. rewrite <- app_assoc. f_equal. f_equal.
      rewrite skipn_app, Lc, skipn_all2 by lia. cbn [app]. rewrite skipn_skipn. f_equal. lia.
    + rewrite app_length, Lc, Lm. lia.
    + apply Forall_app. now split.
Qed.

Theorem scrypt_over d k B lim H a e bits r p pass salt len junk : pbkdf2_hmac_ok d k B lim H -> is_digest k H -> 0 < k <= 128 ->
  bytes_ok pass -> 0 < length pass -> (N.of_nat (length pass) < lim)%N -> bytes_ok salt -> (N.of_nat (B + length salt + 4) < lim)%N -> (N.of_nat (B + 128 * r * p + 4) < lim)%N ->
  0 < r -> 0 < p -> (bits <= 64)%N -> (128 * N.of_nat r * N.of_nat p < 2 ^ 32)%N -> k <= len -> (N.of_nat (pb_blocks k len) < 2 ^ 32)%N ->
  a <> e -> 32 * r * Nat.max (N.to_nat (2 ^ bits)) (Nat.max (S a) (S e)) <= length junk ->
  scrypt_at (32 * r * a) (32 * r * e) (hmac_desc d) 0 (2 ^ bits) r p pass salt len junk = Ok (over_key a e (hmac B H pass) k (2 ^ bits) r p salt len).
Proof.
  intros PB D Hk Bp Lp Lp' Bs Ls Lb Hr Hp Hb Hsz Hlen Hblk Hae Hj. unfold scrypt_at. destruct (N.leb_spec (2 ^ 32) (128 * N.of_nat r * N.of_nat p)) as [X|_]; [lia|].
  assert (Hrp : 128 <= 128 * r * p). { assert (1 <= r * p) by (apply (Nat.mul_le_mono 1 r 1 p); lia). lia. }
  assert (Hm := hmac_is k B H pass D Bp).
  rewrite PB; try assumption; [|reflexivity|lia|].
  2:{ unfold pb_blocks. apply N.le_lt_trans with (m := N.of_nat (128 * r * p)); [|lia]. enough ((128 * r * p + k - 1) / k <= 128 * r * p) by lia.
      apply Nat.div_le_upper_bound; [lia|]. destruct k; [lia|]. set (q := 128 * r * p) in *. clearbody q. assert (q * 1 <= q * S k) by (apply Nat.mul_le_mono_l; lia). destruct q; [lia|]. cbn [Nat.mul]. assert (k * 1 <= k * S q) by (apply Nat.mul_le_mono_l; lia). lia. }
  cbn [bind]. set (b := pbkdf2_key (hmac B H pass) k 1 salt (128 * r * p)) in *. destruct (key_ok k (hmac B H pass) 1 salt (128 * r * p) Hm ltac:(lia) Bs) as [Lkey Bkey]. fold b in Lkey, Bkey.
  destruct (parts_over r a e bits b Hr Hae Hb Bkey p junk Lkey Hj p (le_n _)) as (w' & E & _ & Lc & Bc). rewrite E. cbn [bind fst].
  rewrite skipn_all2 by lia. rewrite app_nil_r. rewrite PB; try assumption; [reflexivity| |reflexivity]. rewrite Lc. exact Lb.
Qed.
(** t1 and t2 where the code has them *)
Theorem scrypt_exact d k B lim H bits r p pass salt len junk : pbkdf2_hmac_ok d k B lim H -> is_digest k H -> 0 < k <= 128 ->
  bytes_ok pass -> 0 < length pass -> (N.of_nat (length pass) < lim)%N -> bytes_ok salt -> (N.of_nat (B + length salt + 4) < lim)%N -> (N.of_nat (B + 128 * r * p + 4) < lim)%N ->
  0 < r -> 0 < p -> (bits <= 64)%N -> (128 * N.of_nat r * N.of_nat p < 2 ^ 32)%N -> k <= len -> (N.of_nat (pb_blocks k len) < 2 ^ 32)%N ->
  length junk = scrypt_room (2 ^ bits) r ->
  scrypt (hmac_desc d) 0 (2 ^ bits) r p pass salt len junk = Ok (over_key 1 2 (hmac B H pass) k (2 ^ bits) r p salt len).
Proof.
  intros PB D Hk Bp Lp Lp' Bs Ls Lb Hr Hp Hb Hsz Hlen Hblk Hj. unfold scrypt. replace (32 * r + 32 * r) with (32 * r * 2) by lia. replace (32 * r) with (32 * r * 1) at 1 by lia.
  apply (scrypt_over d k B lim); try assumption; [lia|].
  rewrite Hj. unfold scrypt_room. assert (1 <= N.to_nat (2 ^ bits)) by (assert (X := N.pow_nonzero 2 bits ltac:(discriminate)); lia).
  replace (32 * r * N.to_nat (2 ^ bits) + 64 * r) with (32 * r * (N.to_nat (2 ^ bits) + 2)) by lia. apply Nat.mul_le_mono_l. lia.
Qed.

(** ** What using the block being worked on does *)
Lemma nth_concat_same k (x : list N) n : concat (map (fun _ : nat => x) (seq k n)) = concat (repeat x n).
Proof. revert k. induction n as [|n IH]; intros k; [reflexivity|]. cbn [seq map concat repeat]. now rewrite IH. Qed.
Lemma concat_zeros m n : concat (repeat (repeat 0%N m) n) = repeat 0%N (n * m).
Proof. induction n as [|n IH]; [reflexivity|]. cbn [repeat concat Nat.mul]. rewrite IH. symmetry. apply repeat_app. Qed.
Lemma slice_zeros o k n : o + k <= n -> slice o k (repeat 0%N n) = repeat 0%N k.
Proof. intros H. unfold slice. replace n with (o + (k + (n - o - k))) by lia. rewrite !repeat_app, skipn_app, skipn_all2 by (rewrite repeat_length; lia). rewrite repeat_length, Nat.sub_diag. cbn [app skipn]. rewrite firstn_app, repeat_length, Nat.sub_diag. cbn [firstn]. rewrite app_nil_r. apply firstn_all2. rewrite repeat_length. lia. Qed.
Lemma salsa8_zeros : salsa8 (repeat 0%N 64) = repeat 0%N 64.
Proof. vm_compute. reflexivity. Qed.
Lemma chain_same z n : salsa8 (xor_bytes z z) = z -> mix_chain z (repeat z n) = repeat z n.
Proof. intros H. induction n as [|n IH]; [reflexivity|]. cbn [repeat mix_chain]. cbv zeta. rewrite H. now rewrite IH. Qed.
Lemma chain_zeros n : mix_chain (repeat 0%N 64) (repeat (repeat 0%N 64) n) = repeat (repeat 0%N 64) n.
Proof. apply chain_same. rewrite (xor_same (repeat 0%N 64)), repeat_length. exact salsa8_zeros. Qed.
Lemma zeros_chain r : 0 < r -> mix_chain (slice (64 * (2 * r - 1)) 64 (repeat 0%N (128 * r))) (blocks64 (2 * r) (repeat 0%N (128 * r))) = repeat (repeat 0%N 64) (2 * r).
Proof.
  intros Hr. rewrite slice_zeros by lia. rewrite <- chain_zeros. f_equal. unfold blocks64.
  assert (G : forall l, (forall i, In i l -> i < 2 * r) -> map (fun i => slice (64 * i) 64 (repeat 0%N (128 * r))) l = repeat (repeat 0%N 64) (length l)).
  { induction l as [|i l IH]; intros Hi; [reflexivity|]. cbn [map length repeat]. rewrite slice_zeros by (specialize (Hi i (or_introl eq_refl)); lia). f_equal. apply IH. intros; apply Hi; now right. }
  rewrite G, seq_length by (intros i Hi; apply in_seq in Hi; lia). reflexivity.
Qed.
Lemma nth_rep {A} (x d : A) n i : i < n -> nth i (repeat x n) d = x.
Proof. revert i. induction n as [|n IH]; intros [|i] H; try lia; cbn; [reflexivity|apply IH; lia]. Qed.
Lemma before_zeros r : 0 < r -> mix_before r (repeat 0%N (128 * r)) = repeat 0%N (128 * r).
Proof. intros Hr. unfold mix_before. rewrite zeros_chain, concat_zeros by exact Hr. f_equal. lia. Qed.
Lemma mix_zeros r : 0 < r -> block_mix r (repeat 0%N (128 * r)) = repeat 0%N (128 * r).
Proof.
  intros Hr. unfold block_mix. rewrite zeros_chain by exact Hr. cbv zeta.
  rewrite (map_ext_in (fun i => nth (2 * i) (repeat (repeat 0%N 64) (2 * r)) []) (fun _ => repeat 0%N 64)) by (intros i Hi; apply in_seq in Hi; apply nth_rep; lia).
  rewrite (map_ext_in (fun i => nth (2 * i + 1) (repeat (repeat 0%N 64) (2 * r)) []) (fun _ => repeat 0%N 64)) by (intros i Hi; apply in_seq in Hi; apply nth_rep; lia).
  rewrite nth_concat_same, concat_zeros, <- repeat_app. f_equal. lia.
Qed.
Theorem over_forgets a e r n v k x t : 0 < r -> length x = 128 * r -> integerify r x n = a ->
  over_use a e r n v (S k) x t = over_use a e r n v k (repeat 0%N (128 * r)) (repeat 0%N (128 * r)).
Proof.
  intros Hr L H. cbn [over_use]. cbv zeta. unfold over_saved. rewrite H, Nat.eqb_refl, xor_same, L. now rewrite mix_zeros, before_zeros.
Qed.
