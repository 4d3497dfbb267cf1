(** EAX over the block ciphers, EAX2 over the MACs and stream ciphers. *)
From Coq Require Import NArith Arith List Bool Lia.
From Verif Require Import Lib.Res Lib.Bytes Lib.XorBytes Lib.MemLemmas Lib.BlockLemmas Spec.Words Spec.Block Spec.Cipher Spec.Arx Spec.Aes Spec.Modes Spec.CbcMac Spec.Mac Spec.Hmac Spec.Hash Spec.Hashes Spec.Keccak Spec.Ae
  Model.Mem Model.BlockApi Model.Modes Model.StreamApi Model.HashApi Model.MacApi Model.Omac Model.Hmac Model.Keccak Model.Eax Model.Ciphers
  Proof.ModesP Proof.ModesFinal Proof.KeccakP Proof.MacP Proof.CiphersP Proof.RekeyP Proof.CbcMacP Proof.CbcMacPubP Proof.RijndaelKeyP Proof.HmacP Proof.HmacPubP Proof.AeP Proof.EaxP Proof.StreamsP Proof.Eax2P.
Import ListNotations.
Local Open Scope nat_scope.

Lemma eax_crypts c F R iv (s0 : axst (ctr_stream c) (omac_desc c)) : length iv <= bc_bs c -> blk (bc_bs c) (omac_k (bc_bs c) F R 0 iv) -> eax_stream_ok c F R iv (ax_stream _ _ s0) -> crypts_as (eax_desc c) s0 (cut_crypt (bc_bs c) F R iv).
Proof.
  intros Li [Ln _] H. assert (X : forall inp s out, session (ctr_crypt c) (ax_stream _ _ s0) inp s out -> out = cut_crypt (bc_bs c) F R iv inp).
  { intros inp s out S. destruct (H inp s out S) as [-> _]. unfold cut_crypt. apply xor_ks_ext. intros j _. unfold ks_byte. f_equal. f_equal. f_equal. unfold cut_nonce, pad_iv. f_equal. f_equal. rewrite firstn_length. lia. }
  destruct (ax_encrypts (ctr_stream c) (omac_desc c) (eax_create c) (eax_recreate c) 1 (N.of_nat (bc_maxkey c)) (N.of_nat (bc_bs c)) (bc_bs c) s0) as [E D]. split.
  - intros hdr pt s ct S. destruct (E hdr pt s ct S) as (st & S'). exact (X _ _ _ S').
  - intros hdr ct s pt S. destruct (D hdr ct s pt S) as (st & S'). exact (X _ _ _ S').
Qed.
Definition self_rekey (c : bcipher) : Prop := forall s r key, bc_create c r key = Ok s -> recreate_ok c s r key.
Lemma self_same c : rekey_same c -> self_rekey c. Proof. intros H s r key E. exact (H s r key key E eq_refl). Qed.
Lemma self_any c : rekey_any c -> self_rekey c. Proof. intros H s r key E. apply H. Qed.
Lemma sound_self : Forall self_rekey sound_ciphers.
Proof.
  apply Forall_forall. intros c Hc. unfold sound_ciphers in Hc. pose proof (proj1 (Forall_forall _ _) rekey_same_list) as A. pose proof (proj1 (Forall_forall _ _) rekey_any_list) as B. cbn [In] in *.
  repeat (destruct Hc as [<-|Hc]; [first [apply self_any, B; tauto|apply self_same, A; tauto]|]). destruct Hc.
Qed.
Section Eax.
  Variables (c : bcipher) (r : N) (key : list N) (b : bc_st c) (F : list N -> list N) (R : N) (iv : list N).
  Hypothesis Hk : key_ok (bc_maxkey c) key.
  Hypothesis Es : bc_create c r key = Ok b.
  Hypothesis W : works c b.
  Hypothesis HF : enc_fn c b F.
  Hypothesis Rk : recreate_ok c b r key.
  Hypothesis HR : cmac_poly (bc_bs c) = Some R.
  Hypothesis Biv : bytes_ok iv.
  Hypothesis Liv : length iv <= bc_bs c.
  Theorem eax_made n : n <= bc_bs c -> exists s0, ae_create (eax_desc c) r key iv n = Ok s0 /\ eax_object (bc_bs c) F R (eax_desc c) s0 iv.
  Proof.
    intros Hn. destruct (eax_create_ok c r key b F R iv Hk Es W HF Rk HR Biv Liv n Hn) as (s0 & E & So & Wk). exists s0. split; [exact E|]. split; [|exact Wk].
    apply eax_crypts; [exact Liv| |exact So]. unfold omac_k. apply (blk_cmac c key b F R iv Hk W HF HR Liv). apply bytes_app. split; [apply bytes_be_bytes|exact Biv].
  Qed.
  Theorem eax_remade r0 key0 b0 iv0 n0 s0 s n : bc_create c r0 key0 = Ok b0 -> recreate_ok c b0 r0 key0 -> ae_create (eax_desc c) r0 key0 iv0 n0 = Ok s0 -> ae_used (eax_desc c) s0 s ->
    recreate_ok c b0 r key -> n <= bc_bs c -> exists s1, ae_recreate (eax_desc c) s r key iv n = Ok s1 /\ eax_object (bc_bs c) F R (eax_desc c) s1 iv.
  Proof.
    intros E0 R0 C0 U Rb Hn. destruct (eax_reuse c b0 r0 key0 iv0 n0 s0 s r key b F R iv n E0 R0 C0 U Hk Es W HF Rb Rk HR Biv Liv Hn) as (s1 & E & So & Wk).
    exists s1. split; [exact E|]. split; [|exact Wk]. apply eax_crypts; [exact Liv| |exact So]. unfold omac_k. apply (blk_cmac c key b F R iv Hk W HF HR Liv). apply bytes_app. split; [apply bytes_be_bytes|exact Biv].
  Qed.
  (** CTR as in the paper *)
  Theorem cut_is_eax M : length iv = bc_bs c -> (be_val (skipn 1 (omac_k (bc_bs c) F R 0 iv)) + N.of_nat (length M / bc_bs c) < 256 ^ N.of_nat (bc_bs c - 1))%N ->
    cut_crypt (bc_bs c) F R iv M = eax_ciphertext (bc_bs c) F R iv M.
  Proof.
    intros L Hc. assert (B : blk (bc_bs c) (omac_k (bc_bs c) F R 0 iv)) by (unfold omac_k; apply (blk_cmac c key b F R iv Hk W HF HR Liv); apply bytes_app; split; [apply bytes_be_bytes|exact Biv]).
    assert (EN : cut_nonce (bc_bs c) F R iv = omac_k (bc_bs c) F R 0 iv).
    { unfold cut_nonce. rewrite L, Nat.sub_diag, app_nil_r. apply firstn_all2. rewrite (proj1 B). apply le_n. }
    unfold cut_crypt, eax_ciphertext. rewrite EN. apply xor_ks_ext. intros j Hj. unfold ctr_ks, ks_byte. f_equal. f_equal. pose proof (proj1 W) as Hbs.
    apply ctr_at_std; [exact B|exact Hbs|]. assert (j / bc_bs c <= length M / bc_bs c) by (apply Nat.div_le_mono; lia). lia.
  Qed.
End Eax.
Definition eax_default_ok (c : bcipher) : Prop := forall key iv n, key_ok (bc_maxkey c) key -> bytes_ok iv -> length iv <= bc_bs c -> n <= bc_bs c ->
  exists b R s0, bc_create c 0 key = Ok b /\ works c b /\ cmac_poly (bc_bs c) = Some R /\ ae_create (eax_desc c) 0 key iv n = Ok s0 /\ eax_object (bc_bs c) (fn (bc_enc c b)) R (eax_desc c) s0 iv.
Theorem eax_sound : Forall eax_default_ok sound_ciphers.
Proof.
  apply Forall_forall. intros c Hc key iv n Hk Bi Li Hn. destruct (proj1 (Forall_forall _ _) omac_sound c Hc key n Hk Hn) as (b & R & Es & W & HR & _).
  destruct (eax_made c 0 key b (fn (bc_enc c b)) R iv Hk Es W (works_fn c b W) (proj1 (Forall_forall _ _) sound_self c Hc b 0%N key Es) HR Bi Li n Hn) as (s0 & E & O).
  exists b, R, s0. auto.
Qed.
Theorem eax_published c ok E R key iv n : works_default c -> is_cipher c ok E -> self_rekey c -> cmac_poly (bc_bs c) = Some R -> key_ok (bc_maxkey c) key -> ok key -> bytes_ok iv -> length iv <= bc_bs c -> n <= bc_bs c ->
  exists s0, ae_create (eax_desc c) 0 key iv n = Ok s0 /\ eax_object (bc_bs c) (E key) R (eax_desc c) s0 iv.
Proof.
  intros Wd I Sr HR Hk Ho Bi Li Hn. destruct (Wd key Hk) as (b & Es & W). destruct (is_keyed c ok E key Wd I Hk Ho) as (s & Es' & HF). rewrite Es in Es'. apply Ok_inj in Es'. subst s.
  exact (eax_made c 0 key b (E key) R iv Hk Es W HF (Sr b 0%N key Es) HR Bi Li n Hn).
Qed.
Theorem eax_aes key iv n : bytes_ok key -> length key = 16 \/ length key = 24 \/ length key = 32 -> bytes_ok iv -> length iv <= 16 -> n <= 16 ->
  exists s0, ae_create (eax_desc rijndael128_desc) 0 key iv n = Ok s0 /\ eax_object 16 (aes_enc key) 0x87 (eax_desc rijndael128_desc) s0 iv.
Proof.
  intros Bk Lk Bi Li Hn. apply (eax_published rijndael128_desc aes_key aes_enc 0x87%N key iv n rijndael128_default aes_cipher); try assumption.
  - apply self_same. exact rijndael128_rekey.
  - reflexivity.
  - split; [exact Bk|]. change (bc_maxkey rijndael128_desc) with 32. lia.
Qed.
Theorem aes_eax_ciphertext key iv M : bytes_ok key -> length key = 16 \/ length key = 24 \/ length key = 32 -> bytes_ok iv -> length iv = 16 ->
  (be_val (skipn 1 (omac_k 16 (aes_enc key) 0x87 0 iv)) + N.of_nat (length M / 16) < 256 ^ 15)%N -> cut_crypt 16 (aes_enc key) 0x87 iv M = eax_ciphertext 16 (aes_enc key) 0x87 iv M.
Proof.
  intros Bk Lk Bi Li Hc. assert (Hk : key_ok (bc_maxkey rijndael128_desc) key) by (split; [exact Bk|change (bc_maxkey rijndael128_desc) with 32; lia]).
  destruct (rijndael128_default key Hk) as (b & Es & W). destruct (is_keyed rijndael128_desc aes_key aes_enc key rijndael128_default aes_cipher Hk Lk) as (s & Es' & HF). rewrite Es in Es'. apply Ok_inj in Es'. subst s.
  apply (cut_is_eax rijndael128_desc key b (aes_enc key) 0x87%N iv); try assumption; [reflexivity|]. change (bc_bs rijndael128_desc) with 16. lia.
Qed.

(** ** MACs for EAX2 *)
Lemma always_ready d r key n ok0 okl okm T0 T : mac_always d r key n ok0 okl okm T0 T -> mac_ready d r key n ok0 okl okm T0 T.
Proof. intros (G0 & G & R). split; [exact G0|]. split; [exact G|]. intros m0 m _ _. apply R. Qed.
Lemma keccak1600_mac_always r n key cap : (r <= 48)%N -> n < 100 -> n <= cap -> bytes_ok key -> 0 < length key ->
  let T := fun m => sponge (keccak_bytes 8 (round_constant 64) (N.to_nat (rounds_of 24 r))) 200 (200 - 2 * n) 1 cap (key ++ m) in
  mac_always mac_keccak1600 r key n (at_most cap) (at_most cap) (fun _ => True) T T.
Proof. intros Hr Hn Hc Bk Lk T. destruct (keccak1600_mac r n cap key Hr Hn Hc Bk Lk) as [[G _] R]. split; [exact G|]. split; [exact G|]. intros m. split; apply R. Qed.
Lemma keccak800_mac_always r n key cap : (r <= 40)%N -> n < 50 -> n <= cap -> bytes_ok key -> 0 < length key ->
  let T := fun m => sponge (keccak_bytes 4 folded_constant (N.to_nat (rounds_of 20 r))) 100 (100 - 2 * n) 1 cap (key ++ m) in
  mac_always mac_keccak800 r key n (at_most cap) (at_most cap) (fun _ => True) T T.
Proof. intros Hr Hn Hc Bk Lk T. destruct (keccak800_mac r n cap key Hr Hn Hc Bk Lk) as [[G _] R]. split; [exact G|]. split; [exact G|]. intros m. split; apply R. Qed.
Lemma digests_le n m okm H : digests n okm H -> m <= n -> digests m okm H.
Proof. intros D L x Bx Ox. destruct (D x Bx Ox). split; [assumption|lia]. Qed.
(** the tags of an HMAC object made for [n] bytes, read in [t] bytes, over the hash [H] for [n] bytes and [H'] for [t] bytes *)
Theorem hmac_always d r n t0 t cap cap0 cap1 okm key : hash_use d r [] n cap okm -> hash_use d r [] t0 cap0 okm -> hash_use d r [] t cap1 okm -> n <= cap -> t0 <= cap -> t <= cap -> t0 <= cap0 -> t <= cap1 ->
  bytes_ok key -> 0 < length key -> length key <= hs_blocksize d \/ n <= hs_blocksize d /\ okm (length key) ->
  exists H H0 H1, computes d r [] n cap okm H /\ computes d r [] t0 cap0 okm H0 /\ computes d r [] t cap1 okm H1 /\
    let B := hs_blocksize d in
    let K := hmac_key B (fun m => firstn n (H m)) key in
    let T := fun H' l m => firstn l (H' (pad_key B opad K ++ firstn l (H (pad_key B ipad K ++ m)))) in
    let ok := fun l => okm (B + l) /\ okm (B + t0) /\ okm (B + t) in
    digests t0 ok (T H0 t0) /\ digests t ok (T H1 t) /\ mac_always (hmac_desc d) r key n (eq [t0]) (eq [t]) ok (T H0 t0) (T H1 t).
Proof.
  intros U U0 U1 L L0 L1 L2 L3 Bk Lk Kk. destruct (use_digests _ _ _ _ _ _ U) as (H & C & D). destruct (use_digests _ _ _ _ _ _ U0) as (H0 & C0 & D0). destruct (use_digests _ _ _ _ _ _ U1) as (H1 & C1 & D1).
  exists H, H0, H1. split; [exact C|]. split; [exact C0|]. split; [exact C1|]. intros B K T ok.
  assert (Dn := digests_le _ _ _ _ D L). assert (Dt0 := digests_le _ _ _ _ D L0). assert (Dt := digests_le _ _ _ _ D L1). assert (Dl0 := digests_le _ _ _ _ D0 L2). assert (Dl := digests_le _ _ _ _ D1 L3).
  split; [|split; [|split; [|split]]].
  - intros m Bm (O1 & O2 & O3). destruct (tagn_ok d r n t0 cap cap0 okm H H0 C Dn Dl0 L0 L2 Dt0 key Bk Kk m Bm (conj O1 O2)) as [X Y]. split; [exact X|]. apply Nat.eq_le_incl. symmetry. exact Y.
  - intros m Bm (O1 & O2 & O3). destruct (tagn_ok d r n t cap cap1 okm H H1 C Dn Dl L1 L3 Dt key Bk Kk m Bm (conj O1 O3)) as [X Y]. split; [exact X|]. apply Nat.eq_le_incl. symmetry. exact Y.
  - intros parts Hb (O1 & O2 & O3). exact (hmac_gives_create d r n t0 cap cap0 okm H H0 C C0 Dn Dl0 L0 L2 Dt0 key Bk Kk Lk parts Hb (conj O1 O2)).
  - intros parts Hb (O1 & O2 & O3). exact (hmac_gives_create d r n t cap cap1 okm H H1 C C1 Dn Dl L1 L3 Dt key Bk Kk Lk parts Hb (conj O1 O3)).
  - intros m. split; intros parts Hb (O1 & O2 & O3).
    + exact (hmac_gives_recreate d r n t0 cap cap0 okm H H0 C C0 Dn Dl0 L0 L2 Dt0 key Bk Kk m Lk parts Hb (conj O1 O2)).
    + exact (hmac_gives_recreate d r n t cap cap1 okm H H1 C C1 Dn Dl L1 L3 Dt key Bk Kk m Lk parts Hb (conj O1 O3)).
Qed.
Lemma om_used_block c s s' : mac_used (omac_desc c) s s' -> om_block c s' = om_block c s.
Proof. intros H. induction H as [|s x s1 s2 E H IH|s n t s1 s2 E H IH]; [reflexivity| |]; rewrite IH; [exact (om_input_keeps c _ _ _ E)|exact (om_tag_keeps c _ _ _ _ E)]. Qed.
Lemma omac_ready c r key n b F R : key_ok (bc_maxkey c) key -> bc_create c r key = Ok b -> enc_fn c b F -> recreate_ok c b r key -> cmac_poly (bc_bs c) = Some R -> n <= bc_bs c ->
  mac_ready (omac_desc c) r key n (at_most (bc_bs c)) (at_most (bc_bs c)) (fun _ => True) (cmac (bc_bs c) F R) (cmac (bc_bs c) F R).
Proof.
  intros Hk Es HF Rk HR Hn. assert (L : 0 < length key) by apply Hk. destruct (omac_computes c r key n b F R Es L HF HR Hn) as [G _]. split; [exact G|]. split; [exact G|].
  intros m0 m E U. apply (omac_regives c m r key n b F R); try assumption. rewrite (om_used_block c _ _ U), (om_create_block c r key n b m0 Es E). unfold recreate_ok in Rk. now rewrite Rk.
Qed.
(** ** EAX2 *)
Theorem eax2_reuse sd md r0 key0 iv0 n0 s0 s r key iv n (okn okm : nat -> Prop) (ok0 okl : list nat -> Prop) T0 T (okt : nat -> Prop) :
  ae_create (eax2_desc sd md) r0 key0 iv0 n0 = Ok s0 -> ae_used (eax2_desc sd md) s0 s ->
  bytes_ok iv -> 0 < n -> length iv <= n -> ok0 [length iv] -> (exists t, okl [t]) -> (forall l, l <= n + length iv -> okm l) -> digests (length iv) okm T0 ->
  (forall t, okt t -> okl [t] /\ t <= length iv /\ digests t okm T) -> ae_args_ok (eax2_desc sd md) key iv n = true ->
  mac_always md r (eax2_mac_key sd key) n ok0 okl okm T0 T -> stream_always sd r (eax2_stream_key sd key) (length iv) okn ->
  exists s1 mkst, ae_recreate (eax2_desc sd md) s r key iv n = Ok s1 /\ (mkst = sm_create sd r (eax2_stream_key sd key) \/ mkst = sm_recreate sd (ax_stream sd md s) r (eax2_stream_key sd key)) /\
    eax2_object n T0 T (eax2_desc sd md) sd s1 mkst iv okn okm okt.
Proof.
  intros E0 U Bi Hn Li O0 One Om D0 Ht A M St. pose proof (used_fits sd md s0 s U (create_fits sd md _ _ _ _ _ E0)) as F.
  destruct (eax2_recreate_ok sd md r key iv n okn okm ok0 okl T0 T okt Bi Hn Li O0 One Om D0 Ht A s F M St) as (s1 & E & Ob). exists s1. eexists. split; [exact E|]. split; [|exact Ob].
  destruct (ax_len sd md s <? n); [now left|now right].
Qed.
Lemma split_parts sd key : bytes_ok key -> 2 <= length key -> (N.of_nat (length key) < 2 ^ 32 - 1)%N -> (0 < sm_maxkey sd)%N ->
  (bytes_ok (eax2_mac_key sd key) /\ 0 < length (eax2_mac_key sd key)) /\ bytes_ok (eax2_stream_key sd key) /\ 0 < length (eax2_stream_key sd key) /\ (N.of_nat (length (eax2_stream_key sd key)) <= sm_maxkey sd)%N.
Proof.
  intros Bk L1 L2 L3. destruct (eax2_splits sd key L2) as [E L]. pose proof Bk as Bk'. rewrite E in Bk'. apply bytes_app in Bk'. destruct Bk' as [B1 B2]. pose proof (f_equal (@length N) E) as El. rewrite app_length in El.
  set (n := N.of_nat (length key)) in *. assert (H1 : (1 <= (n + 1) / 2)%N) by (apply N.div_le_lower_bound; lia).
  assert (H2 : ((n + 1) / 2 < n)%N) by (apply N.div_lt_upper_bound; lia).
  set (h := ((n + 1) / 2)%N) in *. split; [split; [exact B1|]|split; [exact B2|split]]; lia.
Qed.
Section Combine.
  Variables (r : N) (key iv : list N) (n : nat).
  Hypothesis Bk : bytes_ok key.
  Hypothesis Lk : 2 <= length key.
  Hypothesis Ls : (N.of_nat (length key) < 2 ^ 32 - 1)%N.
  Hypothesis Biv : bytes_ok iv.
  Hypothesis Hn : 0 < n.
  Hypothesis Liv : length iv <= n.
  Theorem eax2_keccak1600 sd okn : (0 < sm_maxkey sd)%N -> ae_args_ok (eax2_desc sd mac_keccak1600) key iv n = true -> (r <= 48)%N -> stream_ready sd r (eax2_stream_key sd key) (length iv) okn ->
    let T := fun m => sponge (keccak_bytes 8 (round_constant 64) (N.to_nat (rounds_of 24 r))) 200 (200 - 2 * n) 1 n (eax2_mac_key sd key ++ m) in
    exists s0, ae_create (eax2_desc sd mac_keccak1600) r key iv n = Ok s0 /\
      eax2_object n T T (eax2_desc sd mac_keccak1600) sd s0 (sm_create sd r (eax2_stream_key sd key)) iv okn (fun _ => True) (fun t => t <= length iv).
  Proof.
    intros Hm A Hr St T. destruct (split_parts sd key Bk Lk Ls Hm) as [[Bm Lm] _].
    assert (H99 : n < 100). { unfold ae_args_ok in A. apply andb_prop in A. destruct A as [_ A]. apply Nat.leb_le in A. change (ae_maxtag (eax2_desc sd mac_keccak1600)) with 99 in A. lia. }
    assert (D : forall t, t <= n -> digests t (fun _ => True) T).
    { intros t Hl m Bm' _. destruct (sponge1600_digests (fun _ => True) r (200 - 2 * n) 1 n Hr ltac:(lia) eq_refl (eax2_mac_key sd key ++ m)) as [X Y]; [apply bytes_app; now split|exact I|]. split; [exact X|]. unfold T. lia. }
    apply (eax2_create_ok sd mac_keccak1600 r key iv n okn (fun _ => True) (at_most n) (at_most n) T T); try assumption.
    - unfold at_most. cbn. lia.
    - exists 0. unfold at_most. cbn. lia.
    - auto.
    - now apply D.
    - intros t Hl. split; [unfold at_most; cbn; lia|]. split; [exact Hl|]. apply D. lia.
    - apply always_ready. now apply keccak1600_mac_always.
  Qed.
  Theorem eax2_omac sd c okn b F R : (0 < sm_maxkey sd)%N -> ae_args_ok (eax2_desc sd (omac_desc c)) key iv n = true -> length (eax2_mac_key sd key) <= bc_maxkey c ->
    bc_create c r (eax2_mac_key sd key) = Ok b -> works c b -> enc_fn c b F -> recreate_ok c b r (eax2_mac_key sd key) -> cmac_poly (bc_bs c) = Some R -> stream_ready sd r (eax2_stream_key sd key) (length iv) okn ->
    exists s0, ae_create (eax2_desc sd (omac_desc c)) r key iv n = Ok s0 /\
      eax2_object n (cmac (bc_bs c) F R) (cmac (bc_bs c) F R) (eax2_desc sd (omac_desc c)) sd s0 (sm_create sd r (eax2_stream_key sd key)) iv okn (fun _ => True) (fun t => t <= length iv).
  Proof.
    intros Hm A Hmk Es W HF Rk HR St. destruct (split_parts sd key Bk Lk Ls Hm) as [[Bm Lm] _].
    assert (Hb : n <= bc_bs c). { unfold ae_args_ok in A. apply andb_prop in A. destruct A as [_ A]. now apply Nat.leb_le in A. }
    assert (Kk : key_ok (bc_maxkey c) (eax2_mac_key sd key)) by (split; [exact Bm|lia]).
    assert (D : forall t, t <= n -> digests t (fun _ => True) (cmac (bc_bs c) F R)).
    { intros t Hl. apply (cmac_digests c _ b F R iv Kk W HF HR); lia. }
    apply (eax2_create_ok sd (omac_desc c) r key iv n okn (fun _ => True) (at_most (bc_bs c)) (at_most (bc_bs c))); try assumption.
    - unfold at_most. cbn. lia.
    - exists 0. unfold at_most. cbn. lia.
    - auto.
    - now apply D.
    - intros t Hl. split; [unfold at_most; cbn; lia|]. split; [exact Hl|]. apply D. lia.
    - now apply (omac_ready c r _ n b F R).
  Qed.
  Theorem eax2_hmac sd d t cap cap0 cap1 okn okm : (0 < sm_maxkey sd)%N -> ae_args_ok (eax2_desc sd (hmac_desc d)) key iv n = true ->
    hash_use d r [] n cap okm -> hash_use d r [] (length iv) cap0 okm -> hash_use d r [] t cap1 okm -> n <= cap -> length iv <= cap0 -> t <= cap1 -> t <= length iv ->
    length (eax2_mac_key sd key) <= hs_blocksize d -> (forall l, l <= 2 * n -> okm (hs_blocksize d + l)) ->
    stream_ready sd r (eax2_stream_key sd key) (length iv) okn ->
    exists H H0 H1, computes d r [] n cap okm H /\ computes d r [] (length iv) cap0 okm H0 /\ computes d r [] t cap1 okm H1 /\
    let B := hs_blocksize d in
    let K := hmac_key B (fun m => firstn n (H m)) (eax2_mac_key sd key) in
    let T := fun H' l m => firstn l (H' (pad_key B opad K ++ firstn l (H (pad_key B ipad K ++ m)))) in
    exists s0, ae_create (eax2_desc sd (hmac_desc d)) r key iv n = Ok s0 /\
      eax2_object n (T H0 (length iv)) (T H1 t) (eax2_desc sd (hmac_desc d)) sd s0 (sm_create sd r (eax2_stream_key sd key)) iv okn
        (fun l => okm (B + l) /\ okm (B + length iv) /\ okm (B + t)) (eq t).
  Proof.
    intros Hm A U U0 U1 L1 L2 L3 Lt Hmk Om St. destruct (split_parts sd key Bk Lk Ls Hm) as [[Bm Lm] _].
    destruct (hmac_always d r n (length iv) t cap cap0 cap1 okm (eax2_mac_key sd key) U U0 U1) as (H & H0 & H1 & C & C0 & C1 & D0 & D1 & M); try assumption; try lia.
    exists H, H0, H1. split; [exact C|]. split; [exact C0|]. split; [exact C1|]. intros B K T.
    apply (eax2_create_ok sd (hmac_desc d) r key iv n okn (fun l => okm (B + l) /\ okm (B + length iv) /\ okm (B + t)) (eq [length iv]) (eq [t])); try assumption.
    - reflexivity.
    - now exists t.
    - intros l Hl. unfold B. split; [apply Om; lia|]. split; apply Om; lia.
    - intros t' <-. split; [reflexivity|]. split; [exact Lt|]. exact D1.
    - apply always_ready. exact M.
  Qed.
End Combine.
