(** The Skein code and UBI. *)
From Coq Require Import NArith Arith List Bool Lia.
From Verif Require Import Lib.Word Lib.Res Lib.Bytes Lib.Bij Lib.Lists Lib.MemLemmas Lib.WordsP Lib.BlockLemmas Spec.Words Spec.Block Spec.Modes Spec.Arx Spec.Hash Spec.Skein
  Model.LoadStore Model.Mem Model.BlockApi Model.Threefish Model.HashApi Model.MacApi Model.Md Model.BlockBuf Model.Skein Proof.MdP Proof.HashP Proof.BlockBufP Proof.BlakeP
  Proof.ThreefishP Proof.ThreefishPubP.
Import ListNotations.
Local Open Scope N_scope.

(** ** tweak *)
Definition twk (pos f : N) : list N := le_bytes 12 pos ++ [0; 0; 0; f].
Lemma twk_spec pos ty a b : sk_tweak pos ty a b = twk pos (ty + (if a then 64 else 0) + (if b then 128 else 0)).
Proof. reflexivity. Qed.
Lemma length_twk pos f : length (twk pos f) = 16%nat.
Proof. unfold twk. now rewrite app_length, length_le_bytes. Qed.
Lemma blk_twk pos f : f < 256 -> blk 16 (twk pos f).
Proof. intros H. split; [apply length_twk|]. apply bytes_app. split; [apply bytes_le_bytes|]. repeat constructor; lia. Qed.
Lemma twk_zero : repeat 0 16 = twk 0 0. Proof. reflexivity. Qed.
Lemma set15_twk pos f g : set15 g (twk pos f) = twk pos g.
Proof. reflexivity. Qed.
Lemma final15_twk pos f : final15 (twk pos f) = twk pos (N.lor f 128). Proof. reflexivity. Qed.
Lemma notfirst15_twk pos f : notfirst15 (twk pos f) = twk pos (N.land f 191). Proof. reflexivity. Qed.
Lemma zero12_twk pos f : zero12 (twk pos f) = twk 0 f. Proof. reflexivity. Qed.
Lemma low_twk pos f b : pos < 256 -> b < 256 -> upd (twk pos f) 0 b = twk b f.
Proof.
  intros H Hb. unfold twk. cbn [le_bytes app upd]. rewrite (N.div_small pos), (N.div_small b), (N.mod_small b) by assumption. reflexivity.
Qed.
Lemma pos_carry_ok n q : q + 1 < 256 ^ N.of_nat n -> pos_carry (le_bytes n q) = Ok (le_bytes n (q + 1)).
Proof.
  revert q. induction n as [|n IH]; intros q H; [cbn in H; lia|].
  cbn [le_bytes pos_carry]. rewrite byte_mod. rewrite Nnat.Nat2N.inj_succ, N.pow_succ_r' in H.
  pose proof (N.div_mod q 256 ltac:(discriminate)) as D. pose proof (N.mod_upper_bound q 256 ltac:(discriminate)) as B.
  destruct (N.eq_dec (q mod 256) 255) as [E|E].
  - assert (E1 : (q + 1) mod 256 = 0) by (replace (q + 1) with ((q / 256 + 1) * 256) by lia; apply N.mod_mul; discriminate).
    assert (E2 : (q + 1) / 256 = q / 256 + 1) by (replace (q + 1) with ((q / 256 + 1) * 256) by lia; apply N.div_mul; discriminate).
    rewrite E. change ((255 + 1) mod 256) with 0. change (0 =? 0) with true. cbv iota. rewrite IH by lia. cbn [bind]. rewrite E1, E2. reflexivity.
  - assert (E1 : (q + 1) mod 256 = q mod 256 + 1) by (replace (q + 1) with (q mod 256 + 1 + q / 256 * 256) by lia; rewrite N.mod_add, N.mod_small by lia; reflexivity).
    assert (E2 : (q + 1) / 256 = q / 256) by (replace (q + 1) with (q mod 256 + 1 + q / 256 * 256) by lia; rewrite N.div_add, N.div_small by lia; reflexivity).
    rewrite (N.mod_small (q mod 256 + 1)) by lia. destruct (N.eqb_spec (q mod 256 + 1) 0) as [Z|_]; [exfalso; clear - Z; destruct (q mod 256); discriminate|]. rewrite E1, E2. reflexivity.
Qed.
Definition pos_top : N := 2 ^ 96.
Lemma pos_add_ok pos f a : (a < 256)%nat -> pos + N.of_nat a < pos_top -> pos_add (twk pos f) a = Ok (twk (pos + N.of_nat a) f).
Proof.
  intros Ha H. unfold pos_add, twk. set (x := N.of_nat a) in *. assert (Hx : x < 256) by (subst x; lia). clearbody x.
  change (le_bytes 12 pos) with (pos mod 256 :: le_bytes 11 (pos / 256)). cbn [app nth upd]. rewrite byte_mod.
  pose proof (N.div_mod pos 256 ltac:(discriminate)) as D. pose proof (N.mod_upper_bound pos 256 ltac:(discriminate)) as B.
  change (le_bytes 12 (pos + x)) with ((pos + x) mod 256 :: le_bytes 11 ((pos + x) / 256)). cbn [app].
  assert (C : (pos mod 256 + x < 256 /\ (pos + x) mod 256 = pos mod 256 + x /\ (pos + x) / 256 = pos / 256) \/
    (256 <= pos mod 256 + x /\ (pos + x) mod 256 = pos mod 256 + x - 256 /\ (pos + x) / 256 = pos / 256 + 1)).
  { destruct (N.lt_ge_cases (pos mod 256 + x) 256) as [L|L]; [left|right]; (split; [exact L|]).
    - replace (pos + x) with (pos mod 256 + x + pos / 256 * 256) by lia. rewrite N.mod_add, N.div_add, N.mod_small, N.div_small by lia. auto.
    - replace (pos + x) with (pos mod 256 + x - 256 + (pos / 256 + 1) * 256) by lia. rewrite N.mod_add, N.div_add, N.mod_small, N.div_small by lia. auto. }
  destruct C as [(L & E1 & E2)|(L & E1 & E2)].
  - rewrite (N.mod_small (pos mod 256 + x)) by lia. destruct (N.ltb_spec (pos mod 256 + x) x) as [Z|_]; [exfalso; clear - Z; generalize dependent (pos mod 256); intros; lia|]. rewrite E1, E2. reflexivity.
  - replace ((pos mod 256 + x) mod 256) with (pos mod 256 + x - 256) by (rewrite <- E1; symmetry; apply N.add_mod_idemp_l; discriminate).
    destruct (N.ltb_spec (pos mod 256 + x - 256) x) as [_|Z]; [|exfalso; clear - Z B L; generalize dependent (pos mod 256); intros; lia]. rewrite E1, E2.
    change (slice 1 11 ((pos mod 256 + x - 256) :: le_bytes 11 (pos / 256) ++ [0; 0; 0; f])) with (le_bytes 11 (pos / 256)).
    rewrite pos_carry_ok; [reflexivity|]. rewrite <- E2. apply N.div_lt_upper_bound; [discriminate|]. exact H.
Qed.

Lemma xor_map n c b : length c = n -> length b = n -> map (fun i => N.lxor (nth i c 0) (nth i b 0)) (seq 0 n) = xor_bytes c b.
Proof.
  revert n b. induction c as [|x c IH]; intros n b Hc Hb.
  - subst n. reflexivity.
  - destruct b as [|y b]; [cbn in *; lia|]. subst n. cbn [length seq map nth xor_bytes]. f_equal. rewrite <- seq_shift, map_map. apply (IH _ b); [reflexivity|]. cbn in Hb. lia.
Qed.
Lemma blk_xor n a b : blk n a -> blk n b -> blk n (xor_bytes a b).
Proof.
  intros [La Ba] [Lb Bb]. rewrite <- (xor_map n a b La Lb). split; [now rewrite map_length, seq_length|].
  apply Forall_forall. intros x Hx. apply in_map_iff in Hx. destruct Hx as (i & <- & _). apply (inw_lxor 8); apply bytes_nth; assumption.
Qed.

Section Skein.
  Variables (p : tf_par) (r : N) (E : list N -> list N -> list N -> list N).
  Let bs := sk_bs p.
  Hypothesis Hbs1 : (32 <= bs)%nat.
  Hypothesis Hbs2 : (bs < 256)%nat.
  Hypothesis HE : forall h tw b, blk bs h -> blk 16 tw -> blk bs b -> sk_process p r (h, tw) b = Ok (xor_bytes (E h tw b) b, tw) /\ blk bs (E h tw b).

  Lemma proc_ok h pos f b : blk bs h -> f < 256 -> blk bs b ->
    sk_process p r (h, twk pos f) b = Ok (xor_bytes (E h (twk pos f) b) b, twk pos f) /\ blk bs (xor_bytes (E h (twk pos f) b) b).
  Proof. clear Hbs1 Hbs2. intros Hh Hf Hb. destruct (HE h (twk pos f) b Hh (blk_twk pos f Hf) Hb) as [E1 E2]. split; [exact E1|]. now apply blk_xor. Qed.

  (** ** one block *)
  Lemma ubi_one G M ty : (length M <= bs)%nat -> ubi bs E G M ty = ubi_compress E G (zero_pad bs M) (N.of_nat (length M)) ty true true.
  Proof.
    intros H. unfold ubi, ubi_blocks. replace (Nat.max 1 ((length M + bs - 1) / bs)) with 1%nat.
    - unfold ubi_n. cbn [seq fold_left Nat.add Nat.eqb]. rewrite Nat.mul_1_l. rewrite Nat.min_l by exact H. f_equal.
      unfold block, slice. cbn [Nat.mul skipn]. rewrite firstn_all2; [reflexivity|]. unfold zero_pad. rewrite app_length, repeat_length. lia.
    - destruct (Nat.eq_dec (length M) 0) as [->|N0].
      + rewrite Nat.div_small by lia. reflexivity.
      + replace (length M + bs - 1)%nat with (length M - 1 + 1 * bs)%nat by lia. rewrite Nat.div_add by lia. rewrite Nat.div_small by lia. reflexivity.
  Qed.
  Lemma blk_pad M : bytes_ok M -> (length M <= bs)%nat -> blk bs (zero_pad bs M).
  Proof.
    clear Hbs1 Hbs2 HE. intros Hb Hl. split; [unfold zero_pad; rewrite app_length, repeat_length; lia|]. apply bytes_app. split; [exact Hb|apply bytes_repeat0].
  Qed.

  (** ** message *)
  Variable (G0 : list N) (ty : N).
  Hypothesis HG0 : blk bs G0.
  Hypothesis Hty : ty < 64.
  Let g h b i := ubi_compress E h b (N.of_nat ((i + 1) * bs)) ty (Nat.eqb i 0) false.
  Definition fl (n : nat) : N := ty + (if Nat.eqb n 0 then 64 else 0).
  Definition sinv (step15 : N) (l : list N) (a : list N * list N) : Prop :=
    fst a = chain bs g G0 l /\ blk bs (fst a) /\ snd a = twk (N.of_nat (length l)) (if Nat.eqb (length l) 0 then ty + 64 else step15).
  Lemma div_0 (l : list N) : (length l mod bs = 0 -> Nat.eqb (length l / bs) 0 = Nat.eqb (length l) 0)%nat.
  Proof.
    clear HE HG0 Hty. intros H. pose proof (Nat.div_exact (length l) bs ltac:(lia)) as [_ D]. specialize (D H).
    destruct (Nat.eqb_spec (length l) 0) as [E0|E0].
    - rewrite E0. rewrite Nat.div_small by lia. reflexivity.
    - destruct (Nat.eqb_spec (length l / bs) 0) as [E1|E1]; [|reflexivity]. rewrite E1 in D. lia.
  Qed.
  (** [step15] is the byte without the flag first *)
  Lemma sinv_step l a b : ty = 48 -> sinv 48 l a -> (length l mod bs = 0)%nat -> blk bs b -> N.of_nat (length l + bs) < pos_top ->
    exists a', sk_step p r a b = Ok a' /\ sinv 48 (l ++ b) a'.
  Proof.
    intros Ht (E1 & B1 & E2) Hl Hb Hp. destruct a as [h tw]. cbn [fst snd] in *. subst tw. unfold sk_step. cbn [fst snd]. fold bs.
    rewrite pos_add_ok by lia. cbn [bind fst snd].
    destruct (proc_ok h (N.of_nat (length l) + N.of_nat bs) (if (length l =? 0)%nat then ty + 64 else 48) b) as [Ep Bp]; [assumption|destruct (length l =? 0)%nat; lia|assumption|].
    rewrite Ep. cbn [bind fst snd]. eexists. split; [reflexivity|]. unfold sinv. cbn [fst snd]. rewrite set15_twk.
    rewrite app_length, (proj1 Hb). destruct (Nat.eqb_spec (length l + bs) 0); [lia|]. split; [|split; [exact Bp|]].
    - rewrite chain_snoc by (lia || assumption || apply Hb). rewrite <- E1. unfold g, ubi_compress. f_equal. f_equal.
      rewrite twk_spec. rewrite div_0 by exact Hl. f_equal.
      + rewrite Nat.mul_add_distr_r, Nat.mul_1_l. pose proof (Nat.div_exact (length l) bs ltac:(lia)) as [_ D]. specialize (D Hl). lia.
      + subst ty. destruct (length l =? 0)%nat; reflexivity.
    - f_equal. lia.
  Qed.
  Lemma lib_ubi l t : (length l mod bs = 0)%nat -> (length t < bs)%nat ->
    ubi_n bs E (S (length (l ++ t) / bs)) G0 (l ++ t) ty =
    ubi_compress E (chain bs g G0 l) (zero_pad bs t) (N.of_nat (length (l ++ t))) ty (Nat.eqb (length l) 0) true.
  Proof.
    clear HE HG0 Hty. intros Hl Ht. pose proof (Nat.div_exact (length l) bs ltac:(lia)) as [_ D]. specialize (D Hl).
    assert (Ek : (length (l ++ t) / bs = length l / bs)%nat).
    { rewrite app_length. rewrite D at 1. rewrite (Nat.mul_comm bs (length l / bs)), Nat.add_comm, Nat.div_add by lia. rewrite Nat.div_small by exact Ht. reflexivity. }
    unfold ubi_n. rewrite Ek. set (k := (length l / bs)%nat) in *. rewrite seq_S, fold_left_app. cbn [fold_left Nat.add].
    assert (EP : zero_pad (S k * bs) (l ++ t) = l ++ zero_pad bs t).
    { unfold zero_pad. rewrite <- app_assoc. do 3 f_equal. rewrite app_length. lia. }
    rewrite EP.
    replace (fold_left _ (seq 0 k) G0) with (chain bs g G0 l).
    - replace (block bs k (l ++ zero_pad bs t)) with (zero_pad bs t).
      + rewrite Nat.min_l by (rewrite app_length; lia). unfold k at 1. rewrite div_0 by exact Hl.
        replace (k + 1 =? S k)%nat with true by (symmetry; apply Nat.eqb_eq; lia). reflexivity.
      + symmetry. unfold k. apply block_app_r; [lia|exact Hl|]. unfold zero_pad. rewrite app_length, repeat_length. lia.
    - unfold chain. fold k. apply fold_ext. intros h i Hi. apply in_seq in Hi. rewrite block_app_l by (fold k; lia).
      unfold g. replace (i + 1 =? S k)%nat with false by (symmetry; apply Nat.eqb_neq; lia).
      rewrite Nat.min_r; [reflexivity|]. rewrite app_length. nia.
  Qed.
  Lemma last_ok msg s : ty = 48 -> has_read bs (sinv 48) msg s -> N.of_nat (length msg) < pos_top ->
    exists s', sk_last p r s = Ok s' /\ bb_a s' = (ubi_n bs E (S (length msg / bs)) G0 msg ty, twk (N.of_nat (length msg)) (if (length msg <? bs)%nat then 0xF0 else 0xB0)) /\
      blk bs (fst (bb_a s')).
  Proof.
    intros Ht (l & t & -> & Lt & Hl & Bt & (E1 & B1 & E2) & R) Hp. unfold sk_last. fold bs. rewrite E2, (proj1 R).
    rewrite pos_add_ok; [|lia|rewrite app_length in Hp; lia]. cbn [bind].
    assert (Hb0 : (0 < bs)%nat) by lia. destruct (zeros_ok bs Hb0 bs t {| bb_a := (fst (bb_a s), twk (N.of_nat (length l) + N.of_nat (length t)) (if (length l =? 0)%nat then ty + 64 else 48)); bb_buf := bb_buf s; bb_i := length t |})
      as (s1 & -> & R1 & A1); [split; [reflexivity|exact (proj2 R)]|lia|lia|].
    cbn [bind bb_a] in *. unfold sk_tw. rewrite A1. cbn [fst snd]. rewrite final15_twk. fold (zero_pad bs t) in R1.
    assert (Bz : blk bs (zero_pad bs t)) by (apply blk_pad; [exact Bt|lia]).
    set (f := N.lor (if (length l =? 0)%nat then ty + 64 else 48) 128).
    assert (Ef : f = ty + (if (length l =? 0)%nat then 64 else 0) + 128) by (unfold f; subst ty; destruct (length l =? 0)%nat; reflexivity).
    destruct (proc_ok (fst (bb_a s)) (N.of_nat (length l) + N.of_nat (length t)) f (zero_pad bs t)) as [Ep Bp]; [exact B1|rewrite Ef; destruct (length l =? 0)%nat; lia|exact Bz|].
    destruct (flush_ok bs (sk_process p r) (zero_pad bs t) _ {| bb_a := (fst (bb_a s), twk (N.of_nat (length l) + N.of_nat (length t)) f); bb_buf := bb_buf s1; bb_i := bb_i s1 |}
      (proj2 R1) (proj1 Bz) Ep) as (s2 & E3 & R2 & A2).
    exists s2. split; [exact E3|]. rewrite A2. split; [|exact Bp].
    assert (Ep2 : N.of_nat (length l) + N.of_nat (length t) = N.of_nat (length (l ++ t))) by (rewrite app_length; lia). rewrite Ep2. f_equal.
    - rewrite lib_ubi by assumption. unfold ubi_compress. rewrite <- E1, twk_spec, Ef. reflexivity.
    - f_equal. rewrite Ef. subst ty. rewrite app_length.
      pose proof (Nat.div_exact (length l) bs ltac:(lia)) as [_ D]. specialize (D Hl).
      destruct (Nat.eqb_spec (length l) 0) as [L0|L0]; destruct (Nat.ltb_spec (length l + length t) bs) as [L1|L1]; try reflexivity; [lia|].
      destruct (length l / bs)%nat; lia.
  Qed.
End Skein.

(** ** the hash, for every number of rounds *)
Definition Er (p : tf_par) (r : N) (h tw b : list N) : list N :=
  match tf_encrypt p (tweaked (tf_setup p r h) tw) b with Ok c => c | Err _ => [] end.
Lemma length_prun {A X} (f : A -> list X -> list X) l : (forall a x, length (f a x) = length x) -> forall x, length (prun f l x) = length x.
Proof. intros H. unfold prun. induction l as [|a l IH]; intros x; [reflexivity|]. cbn [fold_left]. rewrite IH. apply H. Qed.
Lemma length_mix o x : length (tf_mix o x) = length x.
Proof. destruct o as [[a b] n]. unfold tf_mix. now rewrite !length_upd. Qed.
Lemma length_tf_add p s r x : length (tf_add p s r x) = length x.
Proof. unfold tf_add. apply (length_prun (fun i y => upd y i _)). intros. apply length_upd. Qed.
Lemma length_enc_loop p s fuel : forall r R x, length (tf_enc_loop p s fuel r R x) = length x.
Proof.
  induction fuel as [|f IH]; intros r R x; cbn [tf_enc_loop]; [reflexivity|]. destruct (r <=? R)%nat; [|reflexivity]. rewrite IH.
  unfold tf_enc_body. now rewrite length_tf_add, (length_prun tf_mix _ length_mix), length_tf_add, (length_prun tf_mix _ length_mix).
Qed.
Lemma Er_ok p r : (0 < tf_n p)%nat -> forall h tw b, blk (sk_bs p) h -> blk 16 tw -> blk (sk_bs p) b ->
  sk_process p r (h, tw) b = Ok (xor_bytes (Er p r h tw b) b, tw) /\ blk (sk_bs p) (Er p r h tw b).
Proof.
  intros Hn h tw b Hh Ht Hb. unfold sk_process. cbn [fst snd]. unfold tf_create.
  rewrite assert_true by (apply key_len_ok_true; split; [apply Hh|]; rewrite (proj1 Hh); unfold tf_maxkey, sk_bs; lia). cbn [bind].
  rewrite tf_tweaked by (rewrite (proj1 Ht); lia). cbn [bind].
  assert (B : blk (sk_bs p) (Er p r h tw b)).
  { unfold Er, tf_encrypt. split.
    - rewrite (length_stores codec64l). rewrite length_enc_loop, length_tf_add, length_loads. reflexivity.
    - apply (bytes_stores codec64l). }
  split; [|exact B].
  assert (Ee : tf_encrypt p (tweaked (tf_setup p r h) tw) b = Ok (Er p r h tw b)) by reflexivity.
  rewrite Ee. cbn [bind]. rewrite xor_map by (apply B || apply Hb). reflexivity.
Qed.
