(** The stream ciphers as objects with a create, an encrypt and a decrypt operation. *)
From Coq Require Import NArith Arith List Bool Lia.
From Verif Require Import Lib.Res Lib.Bytes Lib.XorBytes Lib.MemLemmas Lib.BlockLoop Lib.KeyStreamB Lib.BlockLemmas Spec.Words Spec.Block Spec.Cipher Spec.Modes Spec.Chacha Spec.Salsa20 Spec.Keccak Spec.Hmac Spec.Ae
  Model.Mem Model.BlockApi Model.Modes Model.StreamApi Model.Chacha Model.Salsa20 Model.Keccak Model.KeccakStream
  Proof.ModesP Proof.ModesBP Proof.ModesFinal Proof.ChachaP Proof.Salsa20P Proof.KeccakP Proof.KeccakStreamP Proof.DigestsP Proof.HmacPubP Proof.EaxP.
Import ListNotations.
Local Open Scope nat_scope.

Lemma safe_any {S} (op : S -> mem -> nat -> nat -> nat -> res (S * mem)) mult okn s : call_safe op mult s -> safe_for op mult okn s.
Proof. intros H m src dst len Hm _ Hb Hi. now apply H. Qed.
Lemma safe_upto {S} (op : S -> mem -> nat -> nat -> nat -> res (S * mem)) mult (okn : nat -> Prop) s : (forall n, okn n -> call_safe_upto op n s) -> safe_for op mult okn s.
Proof. intros H m src dst len _ Ho Hb Hi. exact (H len Ho m src dst len (le_n _) Hb Hi). Qed.

Section Block.
  Variables (c : bcipher) (r : N) (key : list N) (b : bc_st c).
  Let bs := bc_bs c.
  Hypothesis Es : bc_create c r key = Ok b.
  Hypothesis W : works c b.
  Hypothesis Hk : 0 < length key <= bc_maxkey c.
  Let Hbs : 0 < bs. Proof. apply W. Qed.
  Let f := fn (bc_enc c b).
  Lemma f_blk x : blk bs x -> blk bs (f x).
  Proof. intros [L B]. destruct W as (_ & U & _). destruct (U x L B) as (y & E & L1 & B1 & _). unfold f, fn. rewrite E. now split. Qed.
  Lemma ctr_ks_lt iv i : blk bs iv -> (lib_ctr_ks c b iv i < 256)%N.
  Proof. intros B. unfold lib_ctr_ks, ks_byte. fold bs f. apply nth_byte_lt. apply f_blk. now apply ctr_at_blk. Qed.
  Lemma ofb_ks_lt iv i : blk bs iv -> (ofb_ks bs f iv i < 256)%N.
  Proof.
    intros B. unfold ofb_ks, ks_byte. apply nth_byte_lt. generalize (i / bs) as j. assert (X : forall j, blk bs (ofb_block f iv j)).
    { induction j as [|j IH]; cbn [ofb_block]; now apply f_blk. } intros j. apply X.
  Qed.
  Lemma ctr_ready n : n <= bs -> stream_ready (ctr_stream c) r key n (fun _ => True).
  Proof.
    intros Hn x Bx Lx. assert (E : exists st, ctr_create c r key x = Ok st).
    { unfold ctr_create. rewrite assert_true by (apply args_ok; [exact Hk|fold bs; lia]). rewrite Es. cbn [bind]. now eexists. }
    destruct E as (st & E). exists st. split; [exact E|]. apply (ks_works (ctr_stream c) _ st (lib_ctr_ks c b (pad_iv bs x)) eq_refl).
    - intros i. apply ctr_ks_lt. apply blk_pad; [exact Bx|lia].
    - intros inp s out S. destruct (ctr_crypts_lib c r key x b Es W Bx st s inp out E S) as [E1 E2]. split; [exact E1|]. now apply safe_any.
  Qed.
  Lemma ofb_ready n : n <= bs -> stream_ready (ofb_stream c) r key n (fun _ => True).
  Proof.
    intros Hn x Bx Lx. assert (E : exists st, fb_create c r key x = Ok st).
    { unfold fb_create. rewrite assert_true by (apply args_ok; [exact Hk|fold bs; lia]). rewrite Es. cbn [bind]. now eexists. }
    destruct E as (st & E). exists st. split; [exact E|]. apply (ks_works (ofb_stream c) _ st (ofb_ks bs f (pad_iv bs x)) eq_refl).
    - intros i. apply ofb_ks_lt. apply blk_pad; [exact Bx|lia].
    - intros inp s out S. destruct (ofb_crypts c r key x b Es W Bx st s inp out E S) as [E1 E2]. split; [exact E1|]. now apply safe_any.
  Qed.
  Lemma cbc_ready n : n <= bs -> stream_ready (cbc_stream c) r key n (fun _ => True).
  Proof.
    intros Hn x Bx Lx. assert (E : exists st, cbc_create c r key x = Ok st).
    { unfold cbc_create. rewrite assert_true by (apply args_ok; [exact Hk|fold bs; lia]). rewrite Es. cbn [bind]. now eexists. }
    destruct E as (st & E). exists st. split; [exact E|]. destruct (cbc_start c r key x b Es Bx st E) as (I0 & _ & _). destruct W as [W1 W2]. split; [|split].
    - intros inp s out S. split; [apply safe_any; exact (proj2 (cbc_encrypts c r key x b Es W Bx st s inp out E S))|].
      destruct (session_crun bs (cbc_estep c b) (cbc_inv c b) (cbc_encrypt c) W1 (cbc_estep_ok c b W2)
        (fun s m src dst n => cbc_enc_loop c b W1 W2 s m src dst n) (cbc_enc_mod c) _ _ _ _ I0 S) as (k & L & B & X & _).
      destruct (crun_ok bs (cbc_estep c b) (cbc_inv c b) (cbc_estep_ok c b W2) k st inp I0 B L) as [_ [_ B2]]. apply (f_equal snd) in X. cbn [snd] in X. now rewrite X.
    - intros inp s out S. destruct (session_crun bs (cbc_dstep c b) (cbc_inv c b) (cbc_decrypt c) W1 (cbc_dstep_ok c b W2)
        (fun s m src dst n => cbc_dec_loop c b W1 W2 s m src dst n) (cbc_dec_mod c) _ _ _ _ I0 S) as (k & L & B & X & I').
      destruct (crun_ok bs (cbc_dstep c b) (cbc_inv c b) (cbc_dstep_ok c b W2) k st inp I0 B L) as [_ [_ B2]]. apply (f_equal snd) in X. cbn [snd] in X. split; [|now rewrite X].
      apply safe_any. intros m src dst len Hl Hb Hm. cbn [sm_multof cbc_stream] in Hl. fold bs in Hl.
      assert (len = len / bs * bs) as Y by (pose proof (Nat.div_mod_eq len bs); lia). rewrite Y in Hb, Hm |- *; clear Y.
      destruct (cbc_dec_loop c b W1 W2 s m src dst (len / bs) Hb Hm I') as (m' & E' & _ & F). eauto.
    - intros inp s out s' out' S1 S2. exact (proj1 (cbc_decrypts c r key x b Es W Bx st s s' inp out out' E S1 S2)).
  Qed.
End Block.


(** ** the key streams *)
Definition started (d : stream) (r : N) (key iv : list N) (s : sm_st d) : Prop := sm_create d r key iv = Ok s \/ exists s0, sm_recreate d s0 r key iv = Ok s.
Lemma ready_intro d r key n okn : (forall x, bytes_ok x -> length x = n -> (exists st, sm_create d r key x = Ok st) /\ forall s, exists st, sm_recreate d s r key x = Ok st) ->
  (forall x st, bytes_ok x -> length x = n -> started d r key x st -> stream_works d okn st) -> stream_always d r key n okn.
Proof.
  intros E H. split; [|intros s]; intros x Bx Lx; destruct (E x Bx Lx) as [E1 E2].
  - destruct E1 as (st & E1). exists st. split; [exact E1|]. apply (H x st Bx Lx). now left.
  - destruct (E2 s) as (st & E3). exists st. split; [exact E3|]. apply (H x st Bx Lx). right. now exists s.
Qed.
Definition chacha_limit (n : nat) : N := if (8 <? n) && (n <=? 12) then (2 ^ 38 - 64)%N else (2 ^ 70 - 64)%N.
Lemma chacha_always r key n : bytes_ok key -> 0 < length key <= 32 -> n <= 24 -> stream_always StreamApi.chacha_stream r key n (fun l => (N.of_nat l <= chacha_limit n)%N).
Proof.
  intros Bk Hk Hn. apply ready_intro.
  - intros x Bx Lx. assert (A : stream_args_ok chacha_maxkey chacha_maxiv key x = true).
    { unfold stream_args_ok, chacha_maxkey, chacha_maxiv. rewrite (proj2 (Nat.ltb_lt _ _)), !(proj2 (Nat.leb_le _ _)) by lia. reflexivity. }
    split; [exact (chacha_create_total r key x Hk ltac:(lia))|]. intros s. cbn [sm_recreate StreamApi.chacha_stream]. unfold chacha_recreate. rewrite A. cbn [assert_]. destruct (cc_setup r key x). eauto.
  - intros x st Bx Lx St. change (chacha_started r key x st) in St. pose proof (chacha_started_inv _ _ _ _ Bk Bx St) as (Lk & Li & A).
    pose proof (cc_h_ok r key x Bk Bx Lk) as Hh. pose proof (cc_nn_ok x Bx) as Hnn.
    apply (ks_works StreamApi.chacha_stream _ st (ks_byte 64 (cc_blocks (if (r =? 0)%N then 20%N else r) (cc_c0 x) (cc_h r key x) (cc_nn x))) eq_refl).
    + intros i. unfold ks_byte. apply nth_byte_lt. unfold cc_blocks, chacha_block. apply bytes_le_string.
    + intros inp s out S. change (session chacha_crypt st inp s out) in S. split.
      * exact (proj1 (session_lim _ _ _ _ (cc_step_ok _ (cc_c0 x) _ _ Hh Hnn) _ _ _ _ _ A S)).
      * apply (safe_upto chacha_crypt). intros m Hm. apply (chacha_safe_room r key x st inp s out m Bk Bx St S). unfold chacha_room. rewrite Lx. exact Hm.
Qed.
Lemma salsa20_always r key n : bytes_ok key -> 0 < length key <= 32 -> n <= 24 -> stream_always StreamApi.salsa20_stream r key n (fun l => (N.of_nat l <= 2 ^ 70 - 64)%N).
Proof.
  intros Bk Hk Hn. apply ready_intro.
  - intros x Bx Lx. assert (A : stream_args_ok salsa20_maxkey salsa20_maxiv key x = true).
    { unfold stream_args_ok, salsa20_maxkey, salsa20_maxiv. rewrite (proj2 (Nat.ltb_lt _ _)), !(proj2 (Nat.leb_le _ _)) by lia. reflexivity. }
    split; [exact (salsa20_create_total r key x Hk ltac:(lia))|]. intros s. cbn [sm_recreate StreamApi.salsa20_stream]. unfold salsa20_recreate. rewrite A. cbn [assert_]. destruct (s20_setup r key x). eauto.
  - intros x st Bx Lx St. change (salsa20_started r key x st) in St.
    apply (ks_works StreamApi.salsa20_stream _ st (Salsa20P.salsa20_stream r key x) eq_refl).
    + intros i. unfold Salsa20P.salsa20_stream, ks_byte. apply nth_byte_lt. unfold salsa_ks. destruct (length x <=? 8); unfold salsa_ks24, salsa_ks8, salsa_hash; apply bytes_le_string.
    + intros inp s out S. change (session salsa20_crypt st inp s out) in S. split; [exact (salsa20_session r key x Bk Bx st inp s out St S)|].
      apply (safe_upto salsa20_crypt). intros m Hm. apply (salsa20_safe r key x Bk Bx st inp s out m St S). exact Hm.
Qed.
Lemma sponge_byte f b dom key iv i : (forall n, digests n (fun _ => True) (sponge f b (b - 2 * length key) dom n)) -> bytes_ok key -> bytes_ok iv ->
  (nth i (sponge f b (b - 2 * length key) dom (Datatypes.S i) (key ++ iv)) 0 < 256)%N.
Proof. intros D Bk Bi. apply nth_byte_lt. apply (D (Datatypes.S i)); [apply bytes_app; now split|exact I]. Qed.
Lemma keccak1600_always r key n : (r <= 48)%N -> bytes_ok key -> 0 < length key <= 99 -> (N.of_nat n <= 4294967295)%N -> stream_always (keccak_stream hash_keccak1600 99) r key n (fun _ => True).
Proof.
  intros Hr Bk Hk Hn. apply ready_intro.
  - intros x Bx Lx. rewrite <- Lx in Hn. destruct (stream1600_create r key x Hr Bk Bx Hk Hn) as (st & E). split; [now exists st|]. intros s. exists st. exact E.
  - intros x st Bx Lx St. apply (ks_works (keccak_stream hash_keccak1600 99) _ st (sponge_stream (keccak_bytes 8 (round_constant 64) (N.to_nat (rounds_of 24 r))) 200 key x) eq_refl).
    + intros i. unfold sponge_stream. apply sponge_byte; try assumption. intros m. apply sponge1600_digests; [exact Hr|lia|reflexivity].
    + intros inp s out S. destruct (stream1600_session r key x st inp s out Hr Bk Bx St S) as (E & Sf & _). split; [exact E|now apply safe_any].
Qed.
Lemma keccak800_always r key n : (r <= 40)%N -> bytes_ok key -> 0 < length key <= 49 -> (N.of_nat n <= 4294967295)%N -> stream_always (keccak_stream hash_keccak800 49) r key n (fun _ => True).
Proof.
  intros Hr Bk Hk Hn. apply ready_intro.
  - intros x Bx Lx. rewrite <- Lx in Hn. destruct (stream800_create r key x Hr Bk Bx Hk Hn) as (st & E). split; [now exists st|]. intros s. exists st. exact E.
  - intros x st Bx Lx St. apply (ks_works (keccak_stream hash_keccak800 49) _ st (sponge_stream (keccak_bytes 4 folded_constant (N.to_nat (rounds_of 20 r))) 100 key x) eq_refl).
    + intros i. unfold sponge_stream. apply sponge_byte; try assumption. intros m. apply sponge800_digests; [exact Hr|lia|reflexivity].
    + intros inp s out S. destruct (stream800_session r key x st inp s out Hr Bk Bx St S) as (E & Sf & _). split; [exact E|now apply safe_any].
Qed.
