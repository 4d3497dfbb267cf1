(** The Skein hashes. *)
From Coq Require Import String.
From Coq Require Import NArith Arith List Bool Lia.
From Verif Require Import Lib.Word Lib.Res Lib.Bytes Lib.Bij Lib.Lists Lib.MemLemmas Lib.WordsP Lib.BlockLemmas Spec.Words Spec.Block Spec.Modes Spec.Arx Spec.Hash Spec.Skein
  Model.LoadStore Model.Mem Model.BlockApi Model.Threefish Model.HashApi Model.MacApi Model.Md Model.BlockBuf Model.Skein Proof.MdP Proof.HashP Proof.BlockBufP Proof.BlakeP
  Proof.ThreefishP Proof.ThreefishPubP Proof.SkeinP.
Import ListNotations.
Local Open Scope N_scope.
Local Notation length := List.length.
Local Notation concat := List.concat.

Definition skein_par (p : tf_par) : Prop := p = threefish256 \/ p = threefish512 \/ p = threefish1024.
Lemma par_n p : skein_par p -> (0 < tf_n p)%nat /\ (32 <= sk_bs p)%nat /\ (sk_bs p < 256)%nat.
Proof. intros [-> |[-> | ->]]; unfold sk_bs; cbn [tf_n threefish256 threefish512 threefish1024]; lia. Qed.

Lemma length_sha3 : length (ascii_bytes "SHA3"%string) = 4%nat. Proof. reflexivity. Qed.
Lemma skipn_cons {A} (l : list A) i d : (i < length l)%nat -> skipn i l = nth i l d :: skipn (S i) l.
Proof. revert i. induction l as [|x l IH]; intros i H; [cbn in H; lia|]. destruct i as [|i]; [reflexivity|]. cbn [skipn nth]. rewrite (IH i) by (cbn in H; lia). reflexivity. Qed.
Lemma wsub32 a b : b <= a -> a < 4294967296 -> wsub 32 a b = a - b.
Proof.
  intros H Ha. unfold wsub. rewrite !mask_mod. change (2 ^ 32) with 4294967296. rewrite (N.mod_small b) by lia.
  replace (a + 4294967296 - b) with (a - b + 1 * 4294967296) by lia. rewrite N.mod_add by discriminate. apply N.mod_small. lia.
Qed.
(** ** input is byte by byte *)
Lemma bb_input_app {A} bs f (s : bb A) a b : bb_input bs f s (a ++ b) = let* s := bb_input bs f s a in bb_input bs f s b.
Proof. revert s. induction a as [|x a IH]; intros s; [reflexivity|]. cbn [app bb_input]. destruct (bb_byte bs f s x); [apply IH|reflexivity]. Qed.
Lemma skh_input_app p s a b : skh_input p s (a ++ b) = let* s := skh_input p s a in skh_input p s b.
Proof.
  unfold skh_input. rewrite bb_input_app. destruct (bb_input (sk_bs p) (sk_step p (sk_r s)) (sk_b s) a) as [s1|e]; [|reflexivity]. reflexivity.
Qed.
Lemma skh_feed p parts s : feed (skein_hash p) s parts = skh_input p s (concat parts).
Proof.
  revert s. induction parts as [|x parts IH]; intros s.
  - destruct s as [a b c d]. reflexivity.
  - cbn [feed concat]. change (hash_input (skein_hash p) s x) with (skh_input p s x). rewrite skh_input_app.
    destruct (skh_input p s x); [apply IH|reflexivity].
Qed.
Theorem skein_input_split p r salt n parts lens :
  digest (skein_hash p) (hash_create (skein_hash p) r salt n) parts lens = digest (skein_hash p) (hash_create (skein_hash p) r salt n) [concat parts] lens.
Proof.
  unfold digest. destruct (hash_create (skein_hash p) r salt n) as [s|e]; [|reflexivity]. cbn [bind]. rewrite !skh_feed. cbn [concat]. now rewrite app_nil_r.
Qed.
(** ** recreate *)
Lemma skh_start_buf p buf buf' r salt n : skh_start p buf r salt n = skh_start p buf' r salt n.
Proof. reflexivity. Qed.
Lemma tf_create_one p r : (0 < tf_n p)%nat -> exists b, tf_create p r [0] = Ok b.
Proof. intros H. unfold tf_create. rewrite assert_true; [eexists; reflexivity|]. apply key_len_ok_true. split; [repeat constructor|]. cbn [length]. unfold tf_maxkey. lia. Qed.
Lemma skh_create_start p r salt n : (0 < tf_n p)%nat -> skh_create p r salt n = skh_start p [] r salt n.
Proof. intros H. unfold skh_create. destruct (tf_create_one p r H) as [b ->]. reflexivity. Qed.
Theorem skein_recreate p s r salt n : skein_par p -> hash_recreate (skein_hash p) s r salt n = hash_create (skein_hash p) r salt n.
Proof.
  intros H. destruct (par_n p H) as (Hn & _). unfold hash_recreate, hash_create. destruct (hash_args_ok (skein_hash p) salt n); [|reflexivity]. cbn [assert_ hs_recreate hs_create skein_hash].
  rewrite skh_create_start by exact Hn. apply skh_start_buf.
Qed.
Theorem skein_all p r salt l n : hash_all (skein_hash p) r salt l n = digest (skein_hash p) (hash_create (skein_hash p) r salt n) [l] [n].
Proof.
  unfold hash_all, hash_create. destruct (hash_args_ok (skein_hash p) salt n); [|reflexivity]. cbn [assert_ hs_all hs_create skein_hash]. unfold skh_all, digest.
  destruct (skh_create p r salt n) as [s|e]; [|reflexivity]. cbn [bind feed]. change (hash_input (skein_hash p) s l) with (skh_input p s l).
  destruct (skh_input p s l) as [s1|e]; [|reflexivity]. cbn [bind drain]. unfold hash_output. cbn [hs_maxout skein_hash Nat.eqb orb assert_ hs_output].
  destruct (skh_output p s1 n) as [q|e]; [|reflexivity]. cbn [bind]. now rewrite app_nil_r.
Qed.

(** ** salt *)
Lemma sk_chunks_0 p fuel r src s : sk_chunks p fuel r src 0 s = Ok s.
Proof. destruct fuel; reflexivity. Qed.
Lemma absorb_short p r src src' s : length src = length src' -> (2 * length src <= sk_bs p)%nat -> sk_absorb p r src s = sk_absorb p r src' s.
Proof.
  intros Hl Hs. unfold sk_absorb. rewrite <- Hl. destruct (length src) as [|k] eqn:El; [reflexivity|]. cbn [sk_chunks]. cbn [Nat.eqb].
  replace (part (sk_bs p) (S k)) with (S k) by (unfold part; destruct (Nat.ltb_spec (sk_bs p) (S k)); [lia|reflexivity]).
  rewrite !firstn_all2 by lia.
  replace (skipn (sk_bs p - S k) (src' ++ skipn (S k) (bb_buf s))) with (skipn (sk_bs p - S k) (src ++ skipn (S k) (bb_buf s))).
  - rewrite Nat.sub_diag. destruct (pos_add (snd (bb_a s)) (S k)) as [tw|e]; [|reflexivity]. cbn [bind]. rewrite Nat.eqb_refl.
    destruct (bb_flush _ _ _) as [s'|e]; [|reflexivity]. cbn [bind]. rewrite !sk_chunks_0. reflexivity.
  - rewrite !skipn_app, (skipn_all2 src), (skipn_all2 src') by lia. now rewrite <- Hl, El.
Qed.
Theorem skein_salt p r salt salt' n : length salt = length salt' -> (2 * length salt <= sk_bs p)%nat ->
  hash_create (skein_hash p) r salt n = hash_create (skein_hash p) r salt' n.
Proof.
  intros Hl Hs. unfold hash_create, hash_args_ok. rewrite <- Hl. destruct (_ && _); [|reflexivity]. cbn [assert_ hs_create skein_hash]. unfold skh_create.
  destruct (tf_create p r [0]); [|reflexivity]. cbn [bind]. unfold skh_start. destruct (sk_cfg p r (sk_len8 n) (sk_start p [])) as [s|e]; [|reflexivity]. cbn [bind].
  rewrite (absorb_short p r salt salt') by assumption. reflexivity.
Qed.

Section Hash.
  Variables (p : tf_par) (r : N) (E : list N -> list N -> list N -> list N).
  Let bs := sk_bs p.
  Hypothesis Hp : skein_par p.
  Hypothesis HE : forall h tw b, blk bs h -> blk 16 tw -> blk bs b -> sk_process p r (h, tw) b = Ok (xor_bytes (E h tw b) b, tw) /\ blk bs (E h tw b).
  Let Hn := proj1 (par_n p Hp).
  Let H32 := proj1 (proj2 (par_n p Hp)).
  Let H256 := proj2 (proj2 (par_n p Hp)).
  Definition cfg_value (K : list N) (n : nat) : list N := ubi bs E K (sk_config (8 * N.of_nat n)) ty_cfg.

  Lemma blk_cfg bits : blk bs (zero_pad bs (sk_config bits)).
  Proof.
    apply blk_pad; [|]; unfold sk_config.
    - repeat (apply bytes_app; split); try apply bytes_le_bytes; try apply bytes_repeat0; repeat constructor.
    - rewrite !app_length, !length_le_bytes, repeat_length. rewrite length_sha3. cbn [length]. fold bs in H32. lia.
  Qed.
  Lemma cfg_block bits : sk_cfg_block p (le_bytes 8 bits) = zero_pad bs (sk_config bits).
  Proof.
    unfold sk_cfg_block, zero_pad, sk_config. fold bs. rewrite !app_length, !length_le_bytes, repeat_length.
    rewrite length_sha3. cbn [length].
    replace (bs - 16)%nat with (16 + (bs - 32))%nat by (fold bs in H32; lia). rewrite repeat_app. rewrite <- !app_assoc. reflexivity.
  Qed.
  (** the configuration, with chaining value [h] and the tweak cleared *)
  Lemma cfg_ok h f bits s : blk bs h -> bb_a s = (h, twk 0 f) ->
    exists s', sk_cfg p r (le_bytes 8 bits) s = Ok s' /\ bb_a s' = (ubi bs E h (sk_config bits) ty_cfg, twk 32 0xC4) /\ blk bs (fst (bb_a s')) /\ bb_i s' = 0%nat /\ bb_buf s' = zero_pad bs (sk_config bits).
  Proof.
    intros Hh Ea. unfold sk_cfg. rewrite Ea. cbn [fst snd]. rewrite low_twk by reflexivity. rewrite set15_twk, cfg_block. fold bs.
    destruct (proc_ok p r E HE h 32 0xC4 (zero_pad bs (sk_config bits)) Hh ltac:(reflexivity) (blk_cfg bits)) as [Ep Bp].
    unfold bb_flush. cbn [bb_buf bb_a]. rewrite (proj1 (blk_cfg bits)), Nat.ltb_irrefl. rewrite firstn_all2 by (rewrite (proj1 (blk_cfg bits)); apply le_n).
    fold bs in Ep, Bp. rewrite Ep. cbn [bind]. eexists. split; [reflexivity|]. cbn [bb_a bb_i bb_buf fst]. split; [|split; [exact Bp|split; reflexivity]].
    f_equal. symmetry. etransitivity; [apply (ubi_one p E H32 H256 h)|fold bs; unfold sk_config; rewrite !app_length, !length_le_bytes, repeat_length, length_sha3; reflexivity].
    unfold sk_config. rewrite !app_length, !length_le_bytes, repeat_length. rewrite length_sha3. cbn [length]. fold bs in H32. lia.
  Qed.
  Lemma len8 n : N.of_nat n < 2 ^ 29 -> sk_len8 n = le_bytes 8 (8 * N.of_nat n).
  Proof. intros H. unfold sk_len8. rewrite store64l_bytes, mask_mod, N.mod_small; [reflexivity|]. change (2 ^ 29) with 536870912 in H. change (2 ^ 32) with 4294967296. lia. Qed.
  Lemma len8_gen n : sk_len8 n = le_bytes 8 (mask 32 (8 * N.of_nat n)).
  Proof. apply store64l_bytes. Qed.

  (** ** what is ready after create, with any chaining value *)
  Definition sready (G : list N) (n : nat) (msg : list N) (s : skh) : Prop :=
    blk bs G /\ sk_r s = r /\ sk_out s = mask 32 (N.of_nat n) /\ sk_f s = false /\ has_read bs (sinv p E G 48 48) msg (sk_b s).
  Lemma input_ok G n msg s l : sready G n msg s -> bytes_ok l -> N.of_nat (length (msg ++ l)) < pos_top ->
    exists s', skh_input p s l = Ok s' /\ sready G n (msg ++ l) s'.
  Proof.
    intros (BG & Er & Eo & Ef & R) Bl Ho. unfold skh_input. rewrite Er. fold bs.
    assert (Hle : forall m k : nat, (m <= k)%nat -> N.of_nat k < pos_top -> N.of_nat m < pos_top) by (intros; lia).
    assert (H0 : (0 < bs)%nat) by (fold bs in H32; lia).
    destruct (bb_input_ok bs H0 (sk_step p r) (sinv p E G 48 48) (fun k => N.of_nat k < pos_top) Hle
      (fun l a b I Hl Hb Hk => sinv_step p r E H32 H256 HE G 48 ltac:(reflexivity) l a b eq_refl I Hl Hb Hk) l msg (sk_b s) R Bl Ho) as (b' & -> & R').
    cbn [bind]. eexists. split; [reflexivity|]. unfold sready. cbn [sk_r sk_out sk_f sk_b]. auto.
  Qed.
  Lemma start_ready G n b : blk bs G -> bb_a b = (G, twk 0 0x70) -> bb_i b = 0%nat ->
    sready G n [] {| sk_r := r; sk_out := mask 32 (N.of_nat n); sk_f := false; sk_b := b |}.
  Proof.
    intros BG Ea Ei. unfold sready. cbn [sk_r sk_out sk_f sk_b]. split; [exact BG|]. split; [reflexivity|]. split; [reflexivity|]. split; [reflexivity|].
    exists [], []. fold bs in H32. repeat split; try assumption; try (cbn [length]; lia); try constructor.
    - cbn [length]. apply Nat.mod_0_l. lia.
    - unfold chain. cbn [length]. rewrite Nat.div_0_l by lia. cbn [seq fold_left]. now rewrite Ea.
    - rewrite Ea. apply BG.
    - rewrite Ea. apply BG.
    - rewrite Ea. reflexivity.
  Qed.
  Lemma create_nosalt n : exists s, skh_create p r [] n = Ok s /\ sready (ubi bs E (repeat 0 bs) (sk_config (mask 32 (8 * N.of_nat n))) ty_cfg) n [] s.
  Proof.
    rewrite skh_create_start by exact Hn. unfold skh_start. rewrite len8_gen.
    destruct (cfg_ok (repeat 0 bs) 0 (mask 32 (8 * N.of_nat n)) (sk_start p [])) as (s1 & -> & A1 & B1 & I1 & _).
    { split; [apply repeat_length|apply bytes_repeat0]. } { reflexivity. }
    cbn [bind]. unfold sk_absorb. cbn [length sk_chunks Nat.eqb bind]. eexists. split; [reflexivity|].
    rewrite A1 in B1. cbn [fst] in B1. apply start_ready; [exact B1| |exact I1].
    unfold sk_tw. rewrite A1. cbn [fst snd bb_a]. rewrite low_twk by reflexivity. rewrite !set15_twk, zero12_twk, set15_twk. reflexivity.
  Qed.

  (** ** output *)
  (** the state while reading: nothing of the buffer is left *)
  Definition sdone (s : skh) : Prop :=
    sk_r s = r /\ sk_f s = true /\ bb_buf (sk_b s) = repeat 0 bs /\ (bb_i (sk_b s) <= bs)%nat /\ blk bs (fst (bb_a (sk_b s))).
  Lemma finish_ok G n msg s : sready G n msg s -> N.of_nat (length msg) < pos_top ->
    exists s', skh_finish p s = Ok s' /\ sdone s' /\ bb_i (sk_b s') = bs /\ sk_out s' = mask 32 (N.of_nat n) /\
      bb_a (sk_b s') = (ubi_n bs E (S (length msg / bs)) G msg ty_msg, twk 8 0x7F).
  Proof.
    intros (BG & Er & Eo & Ef & R) Ho. unfold skh_finish. rewrite Er.
    destruct (last_ok p r E H32 H256 HE G 48 ltac:(reflexivity) msg (sk_b s) eq_refl R Ho) as (s1 & -> & A1 & B1). cbn [bind].
    eexists. split; [reflexivity|]. unfold sdone. cbn [sk_r sk_f sk_b sk_out bb_i bb_buf bb_a fst snd]. fold bs.
    split; [repeat split; try apply B1; auto|]. split; [reflexivity|]. split; [exact Eo|]. rewrite A1. cbn [fst snd]. fold bs. f_equal.
  Qed.
  Lemma next_ok s pos f : sdone s -> snd (bb_a (sk_b s)) = twk pos f -> f < 256 -> pos + N.of_nat bs < pos_top ->
    let f1 := if wsub 32 (sk_out s) (N.of_nat bs) =? 0 then N.lor f 128 else f in
    exists s', skh_next p s = Ok s' /\ sdone s' /\ bb_i (sk_b s') = 0%nat /\ sk_out s' = wsub 32 (sk_out s) (N.of_nat bs) /\
      bb_a (sk_b s') = (xor_bytes (E (fst (bb_a (sk_b s))) (twk pos f1) (repeat 0 bs)) (repeat 0 bs), twk (pos + N.of_nat bs) (N.land f1 191)).
  Proof.
    intros (Er & Ef & Eb & Hi & Bh) Et Hf Hpos f1. unfold skh_next. fold bs.
    set (o := wsub 32 (sk_out s) (N.of_nat bs)) in *.
    assert (Hf1 : f1 < 256) by (subst f1; destruct (o =? 0); [apply (inw_lor 8); [exact Hf|reflexivity]|exact Hf]).
    assert (Bz : blk bs (repeat 0 bs)) by (split; [apply repeat_length|apply bytes_repeat0]).
    destruct (proc_ok p r E HE (fst (bb_a (sk_b s))) pos f1 (repeat 0 bs) Bh Hf1 Bz) as [Ep Bp]. fold bs in Ep, Bp.
    replace (if o =? 0 then sk_tw final15 (sk_b s) else sk_b s) with {| bb_a := (fst (bb_a (sk_b s)), twk pos f1); bb_buf := repeat 0 bs; bb_i := bb_i (sk_b s) |}.
    - unfold bb_flush. cbn [bb_a bb_buf]. rewrite repeat_length, Nat.ltb_irrefl. rewrite firstn_all2 by (rewrite repeat_length; apply le_n).
      rewrite Er, Ep. cbn [bind bb_a snd fst bb_buf]. rewrite notfirst15_twk, pos_add_ok by (assumption || exact H256). cbn [bind].
      eexists. split; [reflexivity|]. unfold sdone. cbn [sk_r sk_f sk_b sk_out bb_i bb_buf bb_a fst snd].
      repeat split; try apply Bp; auto. lia.
    - subst f1. destruct (sk_b s) as [[h tw] buf i]. cbn [bb_a bb_buf bb_i fst snd] in *. subst tw buf. destruct (o =? 0); [|reflexivity].
      unfold sk_tw. cbn [bb_a bb_buf bb_i fst snd]. now rewrite final15_twk.
  Qed.
  (** index and out_len while reading, and that reading never fails *)
  Fixpoint advance (len : nat) (io : nat * N) : nat * N :=
    match len with O => io | S len => let io := if Nat.eqb (fst io) bs then (0%nat, wsub 32 (snd io) (N.of_nat bs)) else io in advance len (S (fst io), snd io) end.
  Lemma read_runs len : forall s pos f, sdone s -> snd (bb_a (sk_b s)) = twk pos f -> f < 256 -> pos + N.of_nat (S len) * N.of_nat bs < pos_top ->
    exists s' o, skh_read p len s = Ok (s', o) /\ length o = len /\ sdone s' /\ (bb_i (sk_b s'), sk_out s') = advance len (bb_i (sk_b s), sk_out s) /\
      exists pos' f', snd (bb_a (sk_b s')) = twk pos' f' /\ f' < 256 /\ pos' <= pos + N.of_nat len * N.of_nat bs.
  Proof.
    induction len as [|len IH]; intros s pos f D Et Hf Hpos.
    - exists s, []. cbn [skh_read advance]. split; [reflexivity|]. split; [reflexivity|]. split; [exact D|]. split; [reflexivity|]. exists pos, f. repeat split; try assumption. lia.
    - cbn [skh_read advance fst snd].
      assert (exists s1, (if (bb_i (sk_b s) =? bs)%nat then skh_next p s else Ok s) = Ok s1 /\ sdone s1 /\ (bb_i (sk_b s1) < bs)%nat /\
        (bb_i (sk_b s1), sk_out s1) = (if (bb_i (sk_b s) =? bs)%nat then (0%nat, wsub 32 (sk_out s) (N.of_nat bs)) else (bb_i (sk_b s), sk_out s)) /\
        exists pos' f', snd (bb_a (sk_b s1)) = twk pos' f' /\ f' < 256 /\ pos' <= pos + N.of_nat bs) as (s1 & E1 & D1 & I1 & A1 & pos1 & f1 & T1 & F1 & P1).
      { destruct (Nat.eqb_spec (bb_i (sk_b s)) bs) as [Ei|Ei].
        - destruct (next_ok s pos f D Et Hf) as (s1 & E1 & D1 & I1 & O1 & A1); [lia|]. exists s1. split; [exact E1|]. split; [exact D1|]. split; [rewrite I1; fold bs in H32; lia|].
          split; [now rewrite I1, O1|]. rewrite A1. eexists _, _. split; [reflexivity|]. split; [|lia].
          apply N.lt_le_trans with (2 ^ 8); [|discriminate]. apply (inw_land_r 8). reflexivity.
        - exists s. split; [reflexivity|]. split; [exact D|]. destruct D as (_ & _ & _ & Hi & _). split; [lia|]. split; [reflexivity|]. exists pos, f. repeat split; try assumption. lia. }
      fold bs. rewrite E1. cbn [bind]. rewrite (get_ok _ _ 0) by (destruct D1 as (_ & _ & _ & _ & [L _]); rewrite L; exact I1). cbn [bind].
      destruct (IH {| sk_r := sk_r s1; sk_out := sk_out s1; sk_f := sk_f s1; sk_b := {| bb_a := bb_a (sk_b s1); bb_buf := bb_buf (sk_b s1); bb_i := S (bb_i (sk_b s1)) |} |} pos1 f1)
        as (s2 & o & E2 & L2 & D2 & A2 & pos2 & f2 & T2 & F2 & P2).
      + destruct D1 as (a & b & c & d & e). unfold sdone. cbn [sk_r sk_f sk_b bb_i bb_buf bb_a]. repeat split; try assumption; try apply e.
      + exact T1.
      + exact F1.
      + lia.
      + fold bs in E2. rewrite E2. cbn [bind fst snd]. exists s2, (nth (bb_i (sk_b s1)) (fst (bb_a (sk_b s1))) 0 :: o). split; [reflexivity|].
        split; [cbn [length]; now rewrite L2|]. split; [exact D2|]. split; [|exists pos2, f2; repeat split; [exact T2|exact F2|lia]].
        rewrite A2. cbn [sk_b bb_i sk_out]. rewrite <- A1. reflexivity.
  Qed.
  (** reading within the block held in h *)
  Lemma read_block len : forall s, sk_f s = true -> (bb_i (sk_b s) + len <= bs)%nat -> length (fst (bb_a (sk_b s))) = bs ->
    exists s', skh_read p len s = Ok (s', slice (bb_i (sk_b s)) len (fst (bb_a (sk_b s)))).
  Proof.
    induction len as [|len IH]; intros s Hf Hi Hl; [eexists; reflexivity|]. cbn [skh_read].
    destruct (Nat.eqb_spec (bb_i (sk_b s)) (sk_bs p)) as [Ei|Ei]; [fold bs in Ei; lia|]. cbn [bind].
    rewrite (get_ok _ _ 0) by lia. cbn [bind].
    destruct (IH {| sk_r := sk_r s; sk_out := sk_out s; sk_f := sk_f s; sk_b := {| bb_a := bb_a (sk_b s); bb_buf := bb_buf (sk_b s); bb_i := S (bb_i (sk_b s)) |} |}) as (s' & E').
    - exact Hf.
    - cbn [sk_b bb_i]. lia.
    - exact Hl.
    - rewrite E'. cbn [bind fst snd sk_b bb_i bb_a]. eexists. f_equal. f_equal. unfold slice.
      rewrite (skipn_cons (fst (bb_a (sk_b s))) (bb_i (sk_b s)) 0) by lia. reflexivity.
  Qed.
  (** the whole digest of [bs] bytes is one block of output *)
  Lemma output_bs G msg s k : sready G bs msg s -> N.of_nat (length msg) < pos_top -> (k <= bs)%nat ->
    exists s', skh_output p s k = Ok (s', firstn k (ubi bs E (ubi_n bs E (S (length msg / bs)) G msg ty_msg) (le_bytes 8 0) ty_out)).
  Proof.
    intros R Ho Hk. unfold skh_output. assert (Ef : sk_f s = false) by apply R. rewrite Ef.
    destruct (finish_ok G bs msg s R Ho) as (s1 & -> & D1 & I1 & O1 & A1). cbn [bind].
    assert (Ebs : mask 32 (N.of_nat bs) = N.of_nat bs) by (rewrite mask_mod; apply N.mod_small; fold bs in H256; change (2 ^ 32) with 4294967296; lia).
    rewrite O1, Ebs. rewrite (proj2 (N.leb_le _ _)) by lia. cbn [assert_].
    destruct k as [|k]; [eexists; reflexivity|]. cbn [skh_read]. rewrite I1. fold bs. rewrite Nat.eqb_refl.
    destruct (next_ok s1 8 0x7F D1) as (s2 & -> & D2 & I2 & O2 & A2).
    { now rewrite A1. } { reflexivity. } { fold bs in H256. unfold pos_top. change (2 ^ 96) with 79228162514264337593543950336. lia. }
    cbn [bind]. rewrite O1, Ebs in A2. replace (wsub 32 (N.of_nat bs) (N.of_nat bs)) with 0 in A2.
    2:{ rewrite wsub32 by (fold bs in H256; lia). symmetry. apply N.sub_diag. }
    change (0 =? 0) with true in A2. cbv iota in A2. rewrite A1 in A2. cbn [fst] in A2.
    set (U := ubi bs E _ (le_bytes 8 0) ty_out).
    assert (EU : fst (bb_a (sk_b s2)) = U).
    { rewrite A2. cbn [fst]. unfold U. symmetry. etransitivity; [apply (ubi_one p E H32 H256); cbn [length le_bytes]; fold bs in H32; lia|]. fold bs.
      unfold ubi_compress. rewrite twk_spec. replace (zero_pad bs (le_bytes 8 0)) with (repeat 0 bs); [reflexivity|].
      unfold zero_pad. change (le_bytes 8 0) with (repeat 0 8). rewrite repeat_length, <- repeat_app. f_equal. fold bs in H32. lia. }
    destruct D2 as (_ & F2 & _ & _ & [L2 _]).
    destruct (read_block (S k) s2 F2) as (s3 & E3); [rewrite I2; lia|exact L2|].
    cbn [skh_read] in E3. rewrite I2 in E3. destruct (Nat.eqb_spec 0 (sk_bs p)) as [Z|_]; [fold bs in Z, H32; lia|]. cbn [bind] in E3.
    exists s3. rewrite <- EU. exact E3.
  Qed.
End Hash.

Lemma hs_args p salt n : N.of_nat (length salt) < 2 ^ 32 -> hash_args_ok (skein_hash p) salt n = true.
Proof.
  intros H. unfold hash_args_ok. cbn [hs_maxsalt hs_maxout skein_hash]. rewrite (proj2 (N.leb_le _ _)); [reflexivity|]. change (2 ^ 32) with 4294967296 in H. lia.
Qed.
Lemma skein_digest p s parts k : digest (skein_hash p) (Ok s) parts [k] = let* s := skh_input p s (concat parts) in let* q := skh_output p s k in Ok (snd q).
Proof.
  unfold digest. cbn [bind]. rewrite skh_feed. destruct (skh_input p s (concat parts)) as [s1|e]; [|reflexivity]. cbn [bind drain]. unfold hash_output. cbn [hs_maxout skein_hash Nat.eqb orb assert_ hs_output].
  destruct (skh_output p s1 k) as [q|e]; [|reflexivity]. cbn [bind]. now rewrite app_nil_r.
Qed.
Lemma bytes_concat parts : Forall bytes_ok parts -> bytes_ok (concat parts).
Proof. induction 1; [constructor|]. cbn. apply Forall_app. split; assumption. Qed.
(** what the library computes for digests of the block size *)
Lemma skein_computes p E : skein_par p ->
  (forall h tw b, blk (sk_bs p) h -> blk 16 tw -> blk (sk_bs p) b -> sk_process p 0 (h, tw) b = Ok (xor_bytes (E h tw b) b, tw) /\ blk (sk_bs p) (E h tw b)) ->
  computes_once (skein_hash p) 0 [] (sk_bs p) (fun len => N.of_nat len < 2 ^ 96) (fun msg => skein_n (sk_bs p) E (S (length msg / sk_bs p)) [] (sk_bs p) msg).
Proof.
  intros Hp HE parts Hb Ho. destruct (par_n p Hp) as (Hn & H32 & H256). set (bs := sk_bs p) in *. change (2 ^ 96) with pos_top in Ho.
  set (msg := concat parts) in *.
  assert (Em : mask 32 (8 * N.of_nat bs) = 8 * N.of_nat bs) by (rewrite mask_mod; apply N.mod_small; change (2 ^ 32) with 4294967296; lia).
  assert (EH : skein_n bs E (S (length msg / bs)) [] bs msg =
    ubi bs E (ubi_n bs E (S (length msg / bs)) (ubi bs E (repeat 0 bs) (sk_config (8 * N.of_nat bs)) ty_cfg) msg ty_msg) (le_bytes 8 0) ty_out).
  { unfold skein_n, sk_output. replace ((bs + bs - 1) / bs)%nat with 1%nat.
    - cbn [seq flat_map]. rewrite app_nil_r. apply firstn_all2. change (N.of_nat 0) with 0.
      assert (B : forall G b pos f, blk bs G -> blk bs b -> f < 256 -> blk bs (xor_bytes (E G (twk pos f) b) b)) by (intros G b pos f HG Hbb Hf; now apply (proc_ok p 0 E HE)).
      rewrite (ubi_one p E H32 H256) by (cbn [le_bytes length]; fold bs; lia). fold bs. unfold ubi_compress. rewrite twk_spec.
      destruct (create_nosalt p 0 E Hp HE bs) as (s & _ & R). rewrite Em in R.
      destruct (input_ok p 0 E Hp HE _ bs [] s msg R) as (s1 & _ & R1); [now apply bytes_concat|exact Ho|]. cbn [app] in R1.
      destruct (finish_ok p 0 E Hp HE _ bs msg s1 R1 Ho) as (s2 & _ & (_ & _ & _ & _ & Bh) & _ & _ & A2). rewrite A2 in Bh. cbn [fst] in Bh. fold bs in Bh.
      assert (Lz : (length (le_bytes 8 0) <= sk_bs p)%nat) by (cbn [le_bytes length]; fold bs; lia).
      rewrite (proj1 (B _ _ _ 255 Bh (blk_pad p (le_bytes 8 0) (bytes_le_bytes 8 0) Lz) eq_refl)). apply le_n.
    - replace (bs + bs - 1)%nat with (bs - 1 + 1 * bs)%nat by lia. rewrite Nat.div_add by lia. rewrite Nat.div_small by lia. reflexivity. }
  assert (K : forall k, (k <= bs)%nat -> digest (skein_hash p) (hash_create (skein_hash p) 0 [] bs) parts [k] = Ok (firstn k (skein_n bs E (S (length msg / bs)) [] bs msg))).
  { intros k Hk. unfold hash_create. rewrite hs_args by reflexivity. cbn [assert_ hs_create skein_hash].
    destruct (create_nosalt p 0 E Hp HE bs) as (s & -> & R). rewrite Em in R. rewrite skein_digest.
    destruct (input_ok p 0 E Hp HE _ bs [] s msg R) as (s1 & E1 & R1); [now apply bytes_concat|exact Ho|]. cbn [app] in R1. fold msg. rewrite E1. cbn [bind].
    destruct (output_bs p 0 E Hp HE _ msg s1 k R1 Ho Hk) as (s2 & ->). cbn [bind snd]. fold bs. now rewrite EH. }
  split.
  - intros k Hk. split; [now apply K|]. intros s. rewrite skein_recreate by exact Hp. now apply K.
  - etransitivity; [apply skein_all|]. unfold msg. rewrite <- skein_input_split. now apply K.
Qed.

(** ** with the published Threefish *)
Lemma spec_process p perm rots m : (0 < tf_n p)%nat -> forallb (forallb (fun r => r <=? 64)) rots = true -> rounds4 p perm rots 0 (tf_e1 p) -> rounds4 p perm rots 4 (tf_e2 p) ->
  tf_def p = N.of_nat (8 * m) -> m <> 0%nat ->
  forall h tw b, blk (sk_bs p) h -> blk 16 tw -> blk (sk_bs p) b ->
    sk_process p 0 (h, tw) b = Ok (xor_bytes (threefish_cipher (tf_n p) perm rots (8 * m) h tw b) b, tw) /\ blk (sk_bs p) (threefish_cipher (tf_n p) perm rots (8 * m) h tw b).
Proof.
  intros Hn H0 H1 H2 H3 H4 h tw b Hh Ht Hb. destruct (Er_ok p 0 Hn h tw b Hh Ht Hb) as [E1 E2].
  replace (threefish_cipher (tf_n p) perm rots (8 * m) h tw b) with (Er p 0 h tw b); [split; assumption|].
  unfold Er. rewrite (tf_pub_any p perm rots 0 m h tw b) by (try assumption; try apply Hh; try apply Ht; rewrite ?(proj1 Hh), ?(proj1 Ht); unfold sk_bs; apply le_n). reflexivity.
Qed.
Definition spec_of (p : tf_par) (E : list N -> list N -> list N -> list N) : Prop :=
  forall h tw b, blk (sk_bs p) h -> blk 16 tw -> blk (sk_bs p) b -> sk_process p 0 (h, tw) b = Ok (xor_bytes (E h tw b) b, tw) /\ blk (sk_bs p) (E h tw b).
Lemma spec256 : spec_of threefish256 threefish256_cipher.
Proof. exact (spec_process threefish256 perm256 rots256 9 (Nat.lt_0_succ _) eq_refl tf256_e1 tf256_e2 eq_refl (Nat.neq_succ_0 _)). Qed.
Lemma spec512 : spec_of threefish512 threefish512_cipher.
Proof. exact (spec_process threefish512 perm512 rots512 9 (Nat.lt_0_succ _) eq_refl tf512_e1 tf512_e2 eq_refl (Nat.neq_succ_0 _)). Qed.
Lemma spec1024 : spec_of threefish1024 threefish1024_cipher.
Proof. exact (spec_process threefish1024 perm1024 rots1024 10 (Nat.lt_0_succ _) eq_refl tf1024_e1 tf1024_e2 eq_refl (Nat.neq_succ_0 _)). Qed.

Lemma same_blocks bs len : (0 < bs)%nat -> (len mod bs <> 0 \/ len = 0)%nat -> S (len / bs) = ubi_blocks bs len.
Proof.
  intros Hb H. unfold ubi_blocks. pose proof (Nat.div_mod len bs ltac:(lia)) as D. pose proof (Nat.mod_upper_bound len bs ltac:(lia)) as M.
  destruct H as [H| ->].
  - set (q := (len / bs)%nat) in *. set (k := (len mod bs)%nat) in *. clearbody q k. subst len.
    replace (bs * q + k + bs - 1)%nat with (k - 1 + (q + 1) * bs)%nat by (rewrite Nat.mul_add_distr_r, (Nat.mul_comm q); lia). rewrite Nat.div_add, Nat.div_small by lia. lia.
  - rewrite Nat.div_0_l by lia. rewrite Nat.div_small by lia. reflexivity.
Qed.
Definition skein_okm (bs len : nat) : Prop := N.of_nat len < 2 ^ 96 /\ (len mod bs <> 0 \/ len = 0)%nat.
Lemma skein_is p E : skein_par p -> spec_of p E ->
  computes_once (skein_hash p) 0 [] (sk_bs p) (skein_okm (sk_bs p)) (skein (sk_bs p) E [] (sk_bs p)).
Proof.
  intros Hp HE parts Hb [Ho1 Ho2]. destruct (par_n p Hp) as (Hn & H32 & H256). pose proof (skein_computes p E Hp HE parts Hb Ho1) as C. cbv beta in C.
  unfold skein. rewrite <- (same_blocks (sk_bs p)) by (assumption || lia). exact C.
Qed.

(** ** any number of rounds and any digest length: reading works when whole blocks are read by all calls but the last *)
Lemma read_app p a : forall b s, skh_read p (a + b) s = let* q := skh_read p a s in let* q2 := skh_read p b (fst q) in Ok (fst q2, snd q ++ snd q2).
Proof.
  induction a as [|a IH]; intros b s.
  - cbn [Nat.add skh_read bind fst snd app]. destruct (skh_read p b s) as [[s' o]|e]; reflexivity.
  - cbn [Nat.add skh_read]. destruct (if (bb_i (sk_b s) =? sk_bs p)%nat then _ else _) as [s1|e]; [|reflexivity]. cbn [bind].
    destruct (get _ _) as [x|e]; [|reflexivity]. cbn [bind]. rewrite IH. destruct (skh_read p a _) as [q|e]; [|reflexivity]. cbn [bind fst snd].
    destruct (skh_read p b (fst q)) as [q2|e]; [|reflexivity]. reflexivity.
Qed.
Lemma advance_0 p k : forall i o, (i + k <= sk_bs p)%nat -> advance p k (i, o) = ((i + k)%nat, o).
Proof.
  induction k as [|k IH]; intros i o H; [cbn; now rewrite Nat.add_0_r|]. cbn [advance fst snd]. destruct (Nat.eqb_spec i (sk_bs p)); [lia|]. cbn [fst snd]. rewrite IH by lia. f_equal. lia.
Qed.
Lemma advance_app p a b : forall io, advance p (a + b) io = advance p b (advance p a io).
Proof. induction a as [|a IH]; intros io; [reflexivity|]. cbn [Nat.add advance]. apply IH. Qed.
Lemma advance_blocks p j : (0 < sk_bs p)%nat -> forall o, N.of_nat (j * sk_bs p) <= o -> o < 4294967296 -> advance p (j * sk_bs p) (sk_bs p, o) = (sk_bs p, o - N.of_nat (j * sk_bs p)).
Proof.
  intros Hb. induction j as [|j IH]; intros o H Ho; [cbn; now rewrite N.sub_0_r|]. cbn [Nat.mul] in *. rewrite advance_app.
  replace (advance p (sk_bs p) (sk_bs p, o)) with (sk_bs p, o - N.of_nat (sk_bs p)).
  - rewrite IH by lia. f_equal. lia.
  - destruct (sk_bs p) as [|k] eqn:E; [lia|]. rewrite <- E at 1 2. cbn [advance fst snd]. rewrite E, Nat.eqb_refl. cbn [fst snd]. rewrite wsub32 by lia. rewrite advance_0 by lia. f_equal. 
Qed.
Lemma skh_drain p len lens s : drain (skein_hash p) s (len :: lens) = let* q := skh_output p s len in let* o := drain (skein_hash p) (fst q) lens in Ok (snd q ++ o).
Proof. reflexivity. Qed.
Lemma drain_blocks p r : skein_par p -> forall js k s pos f, sdone p r s -> snd (bb_a (sk_b s)) = twk pos f -> f < 256 -> bb_i (sk_b s) = sk_bs p ->
  let lens := map (fun j => j * sk_bs p)%nat js ++ [k] in N.of_nat (list_sum lens) <= sk_out s -> sk_out s < 4294967296 -> pos + N.of_nat (S (list_sum lens)) * N.of_nat (sk_bs p) < pos_top ->
  exists s' o, skh_read p (list_sum lens) s = Ok (s', o) /\ length o = list_sum lens /\ drain (skein_hash p) s lens = Ok o.
Proof.
  intros Hp. destruct (par_n p Hp) as (Hn & H32 & H256).
  induction js as [|j js IH]; intros k s pos f D Et Hf Ei lens Ho Ho2 Hpos; cbv zeta in *; cbn [lens map app] in *.
  - cbn [lens map app list_sum fold_right] in *. rewrite Nat.add_0_r in *.
    destruct (read_runs p r (Er p r) Hp (fun h tw b => Er_ok p r Hn h tw b) k s pos f D Et Hf Hpos) as (s' & o & E & L & _). exists s', o. split; [exact E|]. split; [exact L|].
    rewrite skh_drain. unfold skh_output. destruct D as (_ & -> & _). cbn [bind]. rewrite (proj2 (N.leb_le _ _)) by exact Ho. cbn [assert_]. rewrite E. cbn [bind drain snd]. now rewrite app_nil_r.
  - subst lens. cbn [map app list_sum fold_right] in *. fold (list_sum (map (fun j => j * sk_bs p)%nat js ++ [k])) in *.
    set (rest := map (fun j => j * sk_bs p)%nat js ++ [k]) in *.
    destruct (read_runs p r (Er p r) Hp (fun h tw b => Er_ok p r Hn h tw b) (j * sk_bs p) s pos f D Et Hf) as (s1 & o1 & E1 & L1 & D1 & A1 & pos1 & f1 & T1 & F1 & P1); [lia|].
    rewrite Ei, advance_blocks in A1 by lia. injection A1 as A1 A2.
    destruct (IH k s1 pos1 f1 D1 T1 F1 A1) as (s2 & o2 & E2 & L2 & X2); [fold rest; lia|lia|fold rest; lia|]. fold rest in E2, L2, X2.
    exists s2, (o1 ++ o2). rewrite read_app, E1. cbn [bind fst snd]. rewrite E2. cbn [bind fst snd]. split; [reflexivity|]. split; [rewrite app_length; lia|].
    rewrite skh_drain. unfold skh_output. destruct D as (_ & -> & _). cbn [bind]. rewrite (proj2 (N.leb_le _ _)) by lia. cbn [assert_]. rewrite E1. cbn [bind fst snd]. rewrite X2. reflexivity.
Qed.
Lemma drain_finish p s s1 lens : sk_f s = false -> sk_f s1 = true -> skh_finish p s = Ok s1 -> lens <> [] -> drain (skein_hash p) s lens = drain (skein_hash p) s1 lens.
Proof. intros F F1 E Hl. destruct lens as [|l lens]; [congruence|]. rewrite !skh_drain. unfold skh_output. now rewrite F, F1, E. Qed.

(** a new object without salt, ready to be read *)
Lemma skein_ready p r n parts : skein_par p -> N.of_nat n < 2 ^ 32 -> Forall bytes_ok parts -> N.of_nat (length (concat parts)) < 2 ^ 96 ->
  exists s, (let* s := hash_create (skein_hash p) r [] n in feed (skein_hash p) s parts) = Ok s /\ sk_f s = false /\ 
  exists s1, skh_finish p s = Ok s1 /\ sdone p r s1 /\ bb_i (sk_b s1) = sk_bs p /\ sk_out s1 = N.of_nat n /\ snd (bb_a (sk_b s1)) = twk 8 0x7F.
Proof.
  intros Hp Hn32 Hb Ho. destruct (par_n p Hp) as (Hn & H32 & H256). change (2 ^ 96) with pos_top in Ho.
  set (HE := fun h tw b => Er_ok p r Hn h tw b).
  unfold hash_create. rewrite hs_args by reflexivity. cbn [assert_ hs_create skein_hash].
  destruct (create_nosalt p r (Er p r) Hp HE n) as (s & -> & R). cbn [bind]. rewrite skh_feed.
  destruct (input_ok p r (Er p r) Hp HE _ n [] s (concat parts) R) as (s1 & E1 & R1); [now apply bytes_concat|exact Ho|]. cbn [app] in R1. rewrite E1.
  exists s1. split; [reflexivity|]. split; [apply R1|].
  destruct (finish_ok p r (Er p r) Hp HE _ n _ s1 R1 Ho) as (s2 & E2 & D2 & I2 & O2 & A2). exists s2. split; [exact E2|]. split; [exact D2|]. split; [exact I2|].
  split; [rewrite O2, mask_mod; now apply N.mod_small|]. now rewrite A2.
Qed.
Theorem skein_output_blocks p r n parts js k : skein_par p -> N.of_nat n < 2 ^ 32 -> Forall bytes_ok parts -> N.of_nat (length (concat parts)) < 2 ^ 96 ->
  let lens := map (fun j => j * sk_bs p)%nat js ++ [k] in (list_sum lens <= n)%nat ->
  exists o, length o = list_sum lens /\ digest (skein_hash p) (hash_create (skein_hash p) r [] n) parts [list_sum lens] = Ok o /\ 
    digest (skein_hash p) (hash_create (skein_hash p) r [] n) parts lens = Ok o.
Proof.
  intros Hp Hn32 Hb Ho lens Hs. destruct (par_n p Hp) as (Hn & H32 & H256). destruct (skein_ready p r n parts Hp Hn32 Hb Ho) as (s & Es & Fs & s1 & E1 & D1 & I1 & O1 & T1).
  change (2 ^ 32) with 4294967296 in Hn32.
  assert (X : forall js k, let lens := map (fun j => j * sk_bs p)%nat js ++ [k] in (list_sum lens <= n)%nat ->
    exists s' o, skh_read p (list_sum lens) s1 = Ok (s', o) /\ length o = list_sum lens /\ digest (skein_hash p) (hash_create (skein_hash p) r [] n) parts lens = Ok o).
  { clear lens Hs js k. intros js k lens Hs. destruct (drain_blocks p r Hp js k s1 8 0x7F D1 T1 eq_refl I1) as (s' & o & E & L & X).
    - fold lens. rewrite O1. lia.
    - rewrite O1. exact Hn32.
    - fold lens. unfold pos_top. change (2 ^ 96) with 79228162514264337593543950336.
      assert (N.of_nat (S (list_sum lens)) * N.of_nat (sk_bs p) <= 4294967296 * 256) by (apply N.mul_le_mono; lia). lia.
    - exists s', o. fold lens in E, L, X. split; [exact E|]. split; [exact L|]. rewrite <- X, <- (drain_finish p s s1); [|exact Fs|apply D1|exact E1|subst lens; destruct js; discriminate].
      unfold digest. destruct (hash_create (skein_hash p) r [] n) as [s0|e]; [|discriminate]. cbn [bind] in Es |- *. rewrite Es. reflexivity. }
  destruct (X js k Hs) as (s' & o & E & L & XX). fold lens in E, L, XX. exists o. split; [exact L|]. split; [|exact XX].
  destruct (X [] (list_sum lens)) as (s'' & o' & E' & _ & X'); [cbn [map app list_sum fold_right]; lia|]. cbn [map app] in X', E'.
  replace (list_sum [list_sum lens]) with (list_sum lens) in E' by (cbn [list_sum fold_right]; symmetry; apply Nat.add_0_r).
  rewrite X'. congruence.
Qed.
(** reading the block sized digest in two calls aborts when the first call does not take all of it *)
Theorem skein_output_aborts p r parts a b : skein_par p -> Forall bytes_ok parts -> N.of_nat (length (concat parts)) < 2 ^ 96 -> (0 < a)%nat -> (0 < b)%nat -> (a + b <= sk_bs p)%nat ->
  digest (skein_hash p) (hash_create (skein_hash p) r [] (sk_bs p)) parts [a; b] = Err AssertFail.
Proof.
  intros Hp Hb Ho Ha Hb' Hab. destruct (par_n p Hp) as (Hn & H32 & H256).
  assert (L32 : N.of_nat (sk_bs p) < 2 ^ 32) by (change (2 ^ 32) with 4294967296; lia).
  destruct (skein_ready p r (sk_bs p) parts Hp L32 Hb Ho) as (s & Es & Fs & s1 & E1 & D1 & I1 & O1 & T1).
  assert (X : drain (skein_hash p) s1 [a; b] = Err AssertFail).
  { rewrite skh_drain. unfold skh_output at 1. rewrite (proj1 (proj2 D1)). cbn [bind]. rewrite O1, (proj2 (N.leb_le _ _)) by lia. cbn [assert_].
    destruct (read_runs p r (Er p r) Hp (fun h tw b => Er_ok p r Hn h tw b) a s1 8 0x7F D1 T1 eq_refl) as (s2 & o & -> & _ & D2 & A2 & _).
    { unfold pos_top. change (2 ^ 96) with 79228162514264337593543950336. assert (N.of_nat (S a) * N.of_nat (sk_bs p) <= 256 * 256) by (apply N.mul_le_mono; lia). lia. }
    cbn [bind fst snd]. rewrite skh_drain. unfold skh_output. rewrite (proj1 (proj2 D2)). cbn [bind].
    destruct a as [|a]; [lia|]. rewrite I1, O1 in A2. cbn [advance fst snd] in A2. rewrite Nat.eqb_refl in A2. cbn [fst snd] in A2. rewrite wsub32, N.sub_diag in A2 by (try apply N.le_refl; lia).
    rewrite advance_0 in A2 by lia. injection A2 as _ A2. rewrite A2. rewrite (proj2 (N.leb_gt _ _)) by lia. reflexivity. }
  unfold digest. destruct (hash_create (skein_hash p) r [] (sk_bs p)) as [s0|e]; [|discriminate]. cbn [bind] in Es |- *. rewrite Es. cbn [bind]. rewrite (drain_finish p s s1); [exact X|exact Fs|apply D1|exact E1|discriminate].
Qed.
