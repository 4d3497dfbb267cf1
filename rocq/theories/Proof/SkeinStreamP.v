(** The Skein stream ciphers. *)
From Coq Require Import NArith Arith List Bool Lia.
From Verif Require Import Lib.Word Lib.Res Lib.Bytes Lib.Bij Lib.Lists Lib.MemLemmas Lib.KeyStreamB Lib.WordsP Lib.BlockLemmas Spec.Words Spec.Block Spec.Modes Spec.Arx Spec.Hash Spec.Mac Spec.Skein
  Model.LoadStore Model.Mem Model.BlockApi Model.Threefish Model.HashApi Model.MacApi Model.Md Model.BlockBuf Model.Skein Proof.MdP Proof.HashP Proof.BlockBufP Proof.BlakeP
  Proof.ThreefishP Proof.ThreefishPubP Proof.SkeinP Proof.SkeinHashP Proof.MacP Proof.SkeinMacP.
Import ListNotations.
Local Open Scope N_scope.

(** ** which bytes of the key are used *)
Theorem skein_stream_uninit p r key iv : skein_par p -> (0 < length key < sk_bs p)%nat -> N.of_nat (length iv) < 2 ^ 32 -> sks_create p r key iv = Err Uninit.
Proof.
  intros Hp H Hiv. destruct (par_n p Hp) as (Hn & H32 & H256). change (2 ^ 32) with 4294967296 in Hiv. unfold sks_create, sks_args_ok.
  rewrite (proj2 (Nat.ltb_lt _ _)), !(proj2 (N.leb_le _ _)) by lia. cbn [andb assert_]. destruct (tf_create_one p r Hn) as [b ->]. cbn [bind].
  unfold sks_start. rewrite absorb_uninit; [reflexivity|exact H|reflexivity..|exact H256].
Qed.
Theorem skein_stream_first p r key key' iv : length key = length key' -> firstn (sk_bs p) key = firstn (sk_bs p) key' ->
  sks_create p r key iv = sks_create p r key' iv.
Proof.
  intros Hl H. unfold sks_create, sks_args_ok. rewrite <- Hl. destruct (_ && _); [|reflexivity]. cbn [assert_].
  destruct (tf_create p r [0]); [|reflexivity]. cbn [bind]. unfold sks_start. now rewrite (absorb_first p r key key').
Qed.

Definition all_ones : N := 2 ^ 64 - 1.
(** the first block of the key stream: the nonce or, without nonce, the configuration string *)
Definition public_block (bs : nat) (iv : list N) : list N := match iv with [] => zero_pad bs (sk_config all_ones) | _ => iv end.
Definition skein_lib_stream (bs : nat) (E : list N -> list N -> list N -> list N) (key iv : list N) (n : nat) : list N :=
  match n with O => public_block bs iv | S n => skein_stream_block bs E key iv all_ones n end.

Section Stream.
  Variables (p : tf_par) (r : N) (E : list N -> list N -> list N -> list N).
  Let bs := sk_bs p.
  Hypothesis Hp : skein_par p.
  Hypothesis HE : forall h tw b, blk bs h -> blk 16 tw -> blk bs b -> sk_process p r (h, tw) b = Ok (xor_bytes (E h tw b) b, tw) /\ blk bs (E h tw b).
  Hypothesis HT : forall h tw b, blk bs h -> blk 16 tw -> blk bs b -> tf_encrypt p (tweaked (tf_setup p r h) tw) b = Ok (E h tw b).
  Let Hn := proj1 (par_n p Hp).
  Let H32 := proj1 (proj2 (par_n p Hp)).
  Let H256 := proj2 (proj2 (par_n p Hp)).
  Variables (key iv : list N).
  Hypothesis Hkey : blk bs key.
  Hypothesis Hiv : iv = [] \/ blk bs iv.
  Definition sG : list N :=
    let G := ubi bs E (ubi bs E (repeat 0 bs) key ty_key) (sk_config all_ones) ty_cfg in match iv with [] => G | _ => ubi bs E G iv ty_non end.
  (** after [n] blocks *)
  Definition sks_inv (n : nat) (s : sks) : Prop :=
    (1 <= n)%nat /\ sks_block s = tweaked (tf_setup p r sG) (twk 8 0xFF) /\ sks_ctr s = zero_pad bs (le_bytes 8 (N.of_nat (n - 1))).
  Definition limb (n : nat) : bool := N.of_nat n <? 2 ^ 64.
  Definition bl : nat -> list N := skein_lib_stream bs E key iv.
  Lemma bl_S n : bl (S n) = ubi bs E sG (le_bytes 8 (N.of_nat n)) ty_out.
  Proof. unfold bl, skein_lib_stream, skein_stream_block, sG. destruct iv; reflexivity. Qed.

  Lemma stream_start buf : exists s, sks_start p buf r key iv = Ok s /\ sks_inv 1 s /\ firstn bs (sks_buf s) = bl 0 /\ (bs <= length (sks_buf s))%nat /\ sks_i s = 0%nat /\ blk bs sG /\ blk bs (bl 0).
  Proof.
    unfold sks_start. destruct (absorb_key p r E Hp HE key buf Hkey) as (s1 & -> & A1 & B1 & I1). fold bs in A1, B1. cbn [bind]. rewrite A1 in B1. cbn [fst] in B1.
    change (repeat 255 8) with (le_bytes 8 all_ones).
    destruct (cfg_ok p r E Hp HE (ubi bs E (repeat 0 bs) key ty_key) 0x80 all_ones (sk_tw zero12 s1) B1) as (s2 & -> & A2 & B2 & I2 & U2).
    { unfold sk_tw. rewrite A1. reflexivity. }
    cbn [bind]. fold bs in A2, B2, U2. rewrite A2 in B2. cbn [fst] in B2.
    set (s3 := sk_tw (fun tw => set15 84 (zero12 tw)) s2).
    assert (A3 : bb_a s3 = (ubi bs E (ubi bs E (repeat 0 bs) key ty_key) (sk_config all_ones) ty_cfg, twk 0 0x54)) by (unfold s3, sk_tw; rewrite A2; reflexivity).
    assert (C : exists s4 x f, sk_absorb p r iv s3 = Ok s4 /\ bb_a s4 = (sG, twk x f) /\ blk bs sG /\ firstn bs (bb_buf s4) = bl 0 /\ (bs <= length (bb_buf s4))%nat /\ blk bs (bl 0)).
    { destruct Hiv as [Ei|Hb].
      - assert (Lb : blk bs (zero_pad bs (sk_config all_ones))) by apply (blk_cfg p Hp).
        subst s3. unfold sG, bl, skein_lib_stream, public_block. rewrite Ei. exists (sk_tw (fun tw => set15 84 (zero12 tw)) s2), 0, 0x54. split; [reflexivity|]. split; [exact A3|]. split; [exact B2|].
        cbn [sk_tw bb_buf]. rewrite U2. split; [apply firstn_all2; rewrite (proj1 Lb); apply le_n|]. split; [rewrite (proj1 Lb); apply le_n|exact Lb].
      - destruct (absorb_one p r E Hp HE _ ty_non iv s3 B2 Hb ltac:(reflexivity) ltac:(reflexivity) A3) as (s4 & E4 & A4 & B4 & _ & U4).
        fold bs in U4. exists s4. eexists _, _. split; [exact E4|].
        assert (EG : sG = fst (bb_a s4)).
        { rewrite A4. unfold sG. destruct iv; [destruct Hb as [Hb _]; cbn in Hb; fold bs in H32; lia|reflexivity]. }
        split; [rewrite A4 in EG |- *; cbn [fst] in EG; rewrite EG; reflexivity|]. split; [rewrite EG; exact B4|].
        assert (E0 : bl 0 = iv) by (unfold bl, skein_lib_stream, public_block; destruct iv; [destruct Hb as [Hb _]; cbn in Hb; fold bs in H32; lia|reflexivity]).
        rewrite E0, U4. split; [rewrite firstn_app, (proj1 Hb), Nat.sub_diag; cbn [firstn]; rewrite app_nil_r; apply firstn_all2; rewrite (proj1 Hb); apply le_n|].
        split; [rewrite app_length, (proj1 Hb); lia|exact Hb]. }
    destruct C as (s4 & x & f & -> & A4 & BG & U4 & L4 & B0). cbn [bind]. rewrite A4. cbn [fst snd].
    unfold tf_create. rewrite assert_true by (apply key_len_ok_true; split; [apply BG|]; rewrite (proj1 BG); fold bs in H32; unfold bs, tf_maxkey, sk_bs in *; lia). cbn [bind].
    rewrite zero12_twk, low_twk by reflexivity. rewrite set15_twk, tf_tweaked by (rewrite length_twk; lia). cbn [bind].
    eexists. split; [reflexivity|]. cbn [sks_block sks_ctr sks_buf sks_i]. split; [|split; [exact U4|split; [exact L4|split; [reflexivity|split; [exact BG|exact B0]]]]].
    unfold sks_inv. cbn [sks_block sks_ctr]. split; [lia|]. split; [reflexivity|]. unfold zero_pad. change (le_bytes 8 (N.of_nat (1 - 1))) with (repeat 0 8).
    rewrite repeat_length, <- repeat_app. fold bs. f_equal. fold bs in H32. lia.
  Qed.
  Hypothesis BG : blk bs sG.
  Hypothesis B0 : blk bs (bl 0).
  Lemma blk_ctr x : blk bs (zero_pad bs (le_bytes 8 x)).
  Proof. apply (blk_pad p); [apply bytes_le_bytes|]. rewrite length_le_bytes. fold bs in H32 |- *. lia. Qed.
  Lemma bl_eq n : bl (S n) = xor_bytes (E sG (twk 8 0xFF) (zero_pad bs (le_bytes 8 (N.of_nat n)))) (zero_pad bs (le_bytes 8 (N.of_nat n))).
  Proof.
    rewrite bl_S. etransitivity; [apply (ubi_one p E H32 H256); rewrite length_le_bytes; fold bs in H32 |- *; lia|]. fold bs. unfold ubi_compress. rewrite twk_spec, length_le_bytes. reflexivity.
  Qed.
  Lemma length_bl n : length (bl n) = bs.
  Proof. destruct n as [|n]; [apply B0|]. rewrite bl_eq. apply (blk_xor bs); [|apply blk_ctr]. apply HE; [exact BG|apply blk_twk; reflexivity|apply blk_ctr]. Qed.
  Lemma carry_fails n : forall q, q + 1 = 256 ^ N.of_nat n -> exists e, pos_carry (le_bytes n q) = Err e.
  Proof.
    induction n as [|n IH]; intros q H; [eexists; reflexivity|]. rewrite Nat2N.inj_succ, N.pow_succ_r' in H.
    assert (X : q = 255 + (256 ^ N.of_nat n - 1) * 256) by (assert (256 ^ N.of_nat n <> 0) by (apply N.pow_nonzero; discriminate); lia).
    cbn [le_bytes pos_carry]. rewrite X, N.mod_add, N.div_add by discriminate. change (byte (255 mod 256 + 1)) with 0. change (0 =? 0) with true. cbv iota. change (255 / 256) with 0. rewrite N.add_0_l.
    destruct (IH (256 ^ N.of_nat n - 1)) as [e ->]; [assert (256 ^ N.of_nat n <> 0) by (apply N.pow_nonzero; discriminate); lia|]. eexists. reflexivity.
  Qed.
  (** the states of the positions *)
  Lemma next_ok n s : sks_inv n s -> (N.of_nat n <= 2 ^ 64) ->
    if limb n then exists s', sks_next p s = Ok s' /\ sks_inv (S n) s' /\ sks_buf s' = bl n /\ sks_i s' = 0%nat else exists e, sks_next p s = Err e.
  Proof.
    intros (H1 & Eb & Ec) Hle. unfold sks_next. rewrite Eb, Ec. rewrite (HT sG (twk 8 0xFF)) by (exact BG || apply blk_ctr || (apply blk_twk; reflexivity)). cbn [bind].
    assert (F8 : firstn 8 (zero_pad bs (le_bytes 8 (N.of_nat (n - 1)))) = le_bytes 8 (N.of_nat (n - 1))).
    { unfold zero_pad. rewrite firstn_app, length_le_bytes, Nat.sub_diag. cbn [firstn]. now rewrite app_nil_r. }
    assert (S8 : skipn 8 (zero_pad bs (le_bytes 8 (N.of_nat (n - 1)))) = repeat 0 (bs - 8)).
    { unfold zero_pad. rewrite skipn_app, length_le_bytes, Nat.sub_diag. reflexivity. }
    rewrite F8, S8. unfold limb. change (2 ^ 64) with 18446744073709551616 in *. destruct (N.ltb_spec (N.of_nat n) 18446744073709551616) as [L|L].
    - rewrite pos_carry_ok by (change (256 ^ N.of_nat 8) with 18446744073709551616; lia). cbn [bind]. eexists. split; [reflexivity|]. unfold sks_inv. cbn [sks_block sks_ctr sks_buf sks_i].
      split; [split; [lia|split; [reflexivity|]]|split; [|reflexivity]].
      + unfold zero_pad. rewrite length_le_bytes. f_equal. f_equal. lia.
      + assert (Q : bl n = bl (S (n - 1))) by (f_equal; lia). rewrite Q, bl_eq. apply xor_map; [|apply blk_ctr]. apply HE; [exact BG|apply blk_twk; reflexivity|apply blk_ctr].
    - destruct (carry_fails 8 (N.of_nat (n - 1))) as [e ->]; [change (256 ^ N.of_nat 8) with 18446744073709551616; lia|]. eexists. reflexivity.
  Qed.
  Let lim i := buf_lim bs limb i.
  Let ks := ks_byte bs bl.
  Definition sinv' (n : nat) (s : sks) : Prop := sks_inv n s /\ N.of_nat n <= 2 ^ 64.
  Let setu (s : sks) (u : nat) : sks := {| sks_block := sks_block s; sks_i := u; sks_ctr := sks_ctr s; sks_buf := sks_buf s |}.
  Definition sat (i : nat) (s : sks) : Prop :=
    (i = 0%nat /\ sks_i s = 0%nat /\ sks_inv 1 s /\ firstn bs (sks_buf s) = bl 0 /\ (bs <= length (sks_buf s))%nat) \/
    ((0 < i < bs)%nat /\ sks_i s = i /\ sks_inv 1 s /\ firstn bs (sks_buf s) = bl 0 /\ (bs <= length (sks_buf s))%nat) \/
    ((bs <= i)%nat /\ buf_at bs sks_i sks_buf sinv' bl i s).
  Lemma Hb0 : bs <> 0%nat. Proof. fold bs in H32. lia. Qed.
  Lemma refill_ok n s : sinv' n s -> if limb n then exists s', sks_next p s = Ok s' /\ sinv' (S n) s' /\ sks_buf s' = bl n /\ sks_i s' = 0%nat else exists e, sks_next p s = Err e.
  Proof.
    intros [I L]. pose proof (next_ok n s I L) as X. unfold limb in *. destruct (N.ltb_spec (N.of_nat n) (2 ^ 64)) as [L2|L2]; [|exact X].
    destruct X as (s' & E1 & I' & B & U). exists s'. split; [exact E1|]. split; [split; [exact I'|]|split; assumption]. lia.
  Qed.
  Lemma first_block i s : (i < bs)%nat -> sks_i s = i -> sks_inv 1 s -> firstn bs (sks_buf s) = bl 0 -> (bs <= length (sks_buf s))%nat ->
    exists s', sks_gstep p s = Ok (s', ks i) /\ sat (S i) s'.
  Proof.
    intros Hi Ei I F L. unfold sks_gstep. rewrite Ei. destruct (Nat.eqb_spec i (sk_bs p)) as [Z|_]; [fold bs in Z; lia|]. cbn [bind].
    rewrite (get_ok _ _ 0) by lia. cbn [bind]. eexists. split.
    - f_equal. f_equal. unfold ks, ks_byte. rewrite Nat.div_small, Nat.mod_small by exact Hi. rewrite <- F. symmetry. rewrite Ei; now apply nth_firstn.
    - unfold sat. cbn [sks_i sks_buf]. destruct (Nat.eq_dec (S i) bs) as [Eb|Nb].
      + right. right. split; [lia|]. left. rewrite Eb. rewrite Nat.mod_same, Nat.div_same by apply Hb0. cbn [sks_i]. split; [reflexivity|]. split; [rewrite Ei; exact Eb|]. split; [exact I|discriminate].
      + right. left. split; [lia|]. split; [now rewrite Ei|]. split; [exact I|]. split; assumption.
  Qed.
  Lemma gstep_ok i s : sat i s -> if lim i then exists s', sks_gstep p s = Ok (s', ks i) /\ sat (S i) s' else exists e, sks_gstep p s = Err e.
  Proof.
    assert (L0 : forall i, (i < bs)%nat -> lim i = true).
    { intros j Hj. unfold lim, buf_lim. rewrite Nat.div_small by exact Hj. apply orb_true_r. }
    intros [(-> & Ei & I & F & L)|[(Hi & Ei & I & F & L)|(Hi & A)]].
    - rewrite L0 by (fold bs in H32; lia). apply first_block; try assumption. fold bs in H32. lia.
    - rewrite L0 by lia. apply first_block; try assumption. lia.
    - pose proof (buf_get_ok bs sks_i sks_buf setu (sks_next p) sinv' bl limb Hb0 length_bl refill_ok (fun n s u H => H) (fun s u => eq_refl) (fun s u => eq_refl) i s A) as X. fold lim in X. 
      change (buf_get bs sks_i sks_buf setu (sks_next p) s) with (sks_gstep p s) in X. unfold lim. destruct (buf_lim bs limb i); [|exact X].
      destruct X as (s' & E1 & A'). exists s'. split; [exact E1|]. right. right. split; [lia|exact A'].
  Qed.
  Lemma step_ok i s b : sat i s -> if lim i then exists s', sks_step p s b = Ok (s', N.lxor b (ks i)) /\ sat (S i) s' else exists e, sks_step p s b = Err e.
  Proof.
    intros A. pose proof (gstep_ok i s A) as X. unfold sks_step. destruct (lim i); [destruct X as (s' & -> & A'); exists s'; split; [reflexivity|exact A']|destruct X as (e & ->); exists e; reflexivity].
  Qed.
End Stream.

Definition sks_started (p : tf_par) (r : N) (key iv : list N) (s : sks) : Prop :=
  sks_create p r key iv = Ok s \/ exists s', sks_recreate p s' r key iv = Ok s.
Definition ks_lim (bs i : nat) : bool := buf_lim bs limb i.

Section Use.
  Variables (p : tf_par) (r : N) (E : list N -> list N -> list N -> list N).
  Hypothesis Hp : skein_par p.
  Hypothesis HE : forall h tw b, blk (sk_bs p) h -> blk 16 tw -> blk (sk_bs p) b -> sk_process p r (h, tw) b = Ok (xor_bytes (E h tw b) b, tw) /\ blk (sk_bs p) (E h tw b).
  Hypothesis HT : forall h tw b, blk (sk_bs p) h -> blk 16 tw -> blk (sk_bs p) b -> tf_encrypt p (tweaked (tf_setup p r h) tw) b = Ok (E h tw b).
  Variables (key iv : list N).
  Hypothesis Hkey : blk (sk_bs p) key.
  Hypothesis Hiv : iv = [] \/ blk (sk_bs p) iv.
  Let ks := ks_byte (sk_bs p) (skein_lib_stream (sk_bs p) E key iv).
  Lemma args : sks_args_ok key iv = true.
  Proof.
    destruct (par_n p Hp) as (Hn & H32 & H256). unfold sks_args_ok. rewrite (proj1 Hkey). rewrite (proj2 (Nat.ltb_lt _ _)), !(proj2 (N.leb_le _ _)); [reflexivity| |lia|lia].
    destruct Hiv as [->|[-> _]]; cbn [length]; lia.
  Qed.
  Lemma started_at s : sks_started p r key iv s -> sat p r E key iv 0 s /\ blk (sk_bs p) (sG p E key iv) /\ blk (sk_bs p) (bl p E key iv 0).
  Proof.
    intros H. assert (X : exists buf, sks_start p buf r key iv = Ok s).
    { destruct H as [H|(s' & H)].
      - unfold sks_create in H. rewrite args in H. cbn [assert_] in H. destruct (tf_create_one p r (proj1 (par_n p Hp))) as [b Eb]. rewrite Eb in H. exists []. exact H.
      - unfold sks_recreate in H. rewrite args in H. exists (sks_buf s'). exact H. }
    destruct X as [buf X]. destruct (stream_start p r E Hp HE key iv Hkey Hiv buf) as (s1 & E1 & I1 & F1 & L1 & U1 & BG & B0). rewrite X in E1. apply Ok_inj in E1. subst s1.
    split; [left; repeat split; try assumption; apply I1|]. split; assumption.
  Qed.
  Lemma stream_created : exists s, sks_create p r key iv = Ok s.
  Proof.
    destruct (stream_start p r E Hp HE key iv Hkey Hiv []) as (s & Es & _). exists s. unfold sks_create. rewrite args. cbn [assert_].
    destruct (tf_create_one p r (proj1 (par_n p Hp))) as [b ->]. exact Es.
  Qed.
  Lemma skein_stream_session s0 inp s out : sks_started p r key iv s0 -> session (sks_crypt p) s0 inp s out ->
    out = xor_ks ks 0 inp /\ forall n, (N.of_nat (length inp + n) <= 2 ^ 64 * N.of_nat (sk_bs p)) -> call_safe_upto (sks_crypt p) n s /\ gcall_safe_upto (sks_prng p) n s.
  Proof.
    intros H S. destruct (started_at s0 H) as (A & BG & B0).
    destruct (session_lim (sks_step p) (sat p r E key iv) ks (ks_lim (sk_bs p)) (step_ok p r E Hp HE HT key iv Hiv BG B0) 0 s0 inp s out A S) as [-> A'].
    split; [reflexivity|]. intros n Hn. cbn [Nat.add] in A'.
    assert (Hl : forall j, (j < n)%nat -> ks_lim (sk_bs p) (length inp + j) = true).
    { intros j Hj. unfold ks_lim, buf_lim, limb. apply orb_true_iff. right. apply N.ltb_lt. destruct (par_n p Hp) as (_ & H32 & _).
      rewrite Nat2N.inj_div. apply N.div_lt_upper_bound; lia. }
    split.
    - exact (safe_lim (sks_step p) (sat p r E key iv) ks (ks_lim (sk_bs p)) (step_ok p r E Hp HE HT key iv Hiv BG B0) (length inp) s n A' Hl).
    - exact (gsafe_lim (sks_gstep p) (sat p r E key iv) ks (ks_lim (sk_bs p)) (gstep_ok p r E Hp HE HT key iv Hiv BG B0) (length inp) s n A' Hl).
  Qed.
  Lemma skein_stream_gsession s0 s out : sks_started p r key iv s0 -> gsession (sks_prng p) s0 s out -> out = map ks (seq 0 (length out)).
  Proof.
    intros H S. destruct (started_at s0 H) as (A & BG & B0).
    destruct (gsession_lim (sks_gstep p) (sat p r E key iv) ks (ks_lim (sk_bs p)) (gstep_ok p r E Hp HE HT key iv Hiv BG B0) 0 s0 s out A S) as [E1 _]. exact E1.
  Qed.
End Use.

Lemma xor_cancel a : forall a' b, length a = length b -> length a' = length b -> xor_bytes a b = xor_bytes a' b -> a = a'.
Proof.
  induction a as [|x a IH]; intros [|y a'] [|z b] H1 H2 H; try discriminate; [reflexivity|]. unfold xor_bytes in H. cbn [combine map] in H. injection H as Hx Ht.
  f_equal; [|apply (IH a' b); try assumption; now injection H1 + now injection H2]. apply (f_equal (fun v => N.lxor v z)) in Hx. now rewrite !N.lxor_assoc, !N.lxor_nilpotent, !N.lxor_0_r in Hx.
Qed.
Lemma spec_enc p E : skein_par p -> spec_of p E -> forall h tw b, blk (sk_bs p) h -> blk 16 tw -> blk (sk_bs p) b -> tf_encrypt p (tweaked (tf_setup p 0 h) tw) b = Ok (E h tw b).
Proof.
  intros Hp HE h tw b Hh Ht Hb. destruct (HE h tw b Hh Ht Hb) as [E1 B1]. destruct (Er_ok p 0 (proj1 (par_n p Hp)) h tw b Hh Ht Hb) as [E2 B2]. rewrite E1 in E2.
  apply Ok_inj in E2. injection E2 as E2. apply xor_cancel in E2; [|rewrite (proj1 B1), (proj1 Hb); reflexivity|rewrite (proj1 B2), (proj1 Hb); reflexivity]. rewrite E2. reflexivity.
Qed.

Theorem skein_stream_create p E key iv : skein_par p -> spec_of p E -> blk (sk_bs p) key -> iv = [] \/ blk (sk_bs p) iv -> exists s, sks_create p 0 key iv = Ok s.
Proof. intros Hp HE. exact (stream_created p 0 E Hp HE key iv). Qed.
Theorem skein_stream_is p E key iv s0 inp s out : skein_par p -> spec_of p E -> blk (sk_bs p) key -> iv = [] \/ blk (sk_bs p) iv -> sks_started p 0 key iv s0 ->
  session (sks_crypt p) s0 inp s out ->
  out = xor_ks (ks_byte (sk_bs p) (skein_lib_stream (sk_bs p) E key iv)) 0 inp /\
  forall n, N.of_nat (length inp + n) <= 2 ^ 64 * N.of_nat (sk_bs p) -> call_safe_upto (sks_crypt p) n s /\ gcall_safe_upto (sks_prng p) n s.
Proof. intros Hp HE Hk Hi. exact (skein_stream_session p 0 E Hp HE (spec_enc p E Hp HE) key iv Hk Hi s0 inp s out). Qed.
Theorem skein_prng_is p E key iv s0 s out : skein_par p -> spec_of p E -> blk (sk_bs p) key -> iv = [] \/ blk (sk_bs p) iv -> sks_started p 0 key iv s0 ->
  gsession (sks_prng p) s0 s out -> out = map (ks_byte (sk_bs p) (skein_lib_stream (sk_bs p) E key iv)) (seq 0 (length out)).
Proof. intros Hp HE Hk Hi. exact (skein_stream_gsession p 0 E Hp HE (spec_enc p E Hp HE) key iv Hk Hi s0 s out). Qed.
(** any number of rounds *)
Lemma Er_enc p r h tw b : tf_encrypt p (tweaked (tf_setup p r h) tw) b = Ok (Er p r h tw b).
Proof. reflexivity. Qed.
Theorem skein_stream_back p r key iv s0 s0' inp s out s' back : skein_par p -> blk (sk_bs p) key -> iv = [] \/ blk (sk_bs p) iv ->
  sks_started p r key iv s0 -> sks_started p r key iv s0' -> session (sks_crypt p) s0 inp s out -> session (sks_crypt p) s0' out s' back -> back = inp.
Proof.
  intros Hp Hk Hi S1 S2 R1 R2. pose proof (fun h tw b => Er_ok p r (proj1 (par_n p Hp)) h tw b) as HE.
  destruct (skein_stream_session p r (Er p r) Hp HE (fun h tw b _ _ _ => Er_enc p r h tw b) key iv Hk Hi _ _ _ _ S1 R1) as [-> _].
  destruct (skein_stream_session p r (Er p r) Hp HE (fun h tw b _ _ _ => Er_enc p r h tw b) key iv Hk Hi _ _ _ _ S2 R2) as [-> _]. apply xor_ks_invol.
Qed.
(** the first block of the key stream does not depend on the key *)
Lemma xor_ks_bytes l : forall ks i B, (length l <= length B)%nat -> (forall j, (j < length B)%nat -> ks (i + j)%nat = nth j B 0) -> xor_ks ks i l = xor_bytes l B.
Proof.
  induction l as [|x l IH]; intros ks i [|y B] H1 H2; cbn [length] in *; try lia; [reflexivity..|]. cbn [xor_ks xor_bytes]. f_equal.
  - rewrite <- (Nat.add_0_r i), H2 by lia. reflexivity.
  - apply IH; [lia|]. intros j Hj. change (nth j B 0) with (nth (S j) (y :: B) 0). rewrite <- (H2 (S j)) by lia. f_equal. lia.
Qed.
Theorem skein_stream_public p r key iv s0 inp s out : skein_par p -> blk (sk_bs p) key -> iv = [] \/ blk (sk_bs p) iv ->
  sks_started p r key iv s0 -> session (sks_crypt p) s0 inp s out -> (length inp <= sk_bs p)%nat ->
  out = xor_bytes inp (public_block (sk_bs p) iv).
Proof.
  intros Hp Hk Hi S1 R1 Hl. destruct (par_n p Hp) as (Hn & H32 & _). pose proof (fun h tw b => Er_ok p r Hn h tw b) as HE.
  destruct (skein_stream_session p r (Er p r) Hp HE (fun h tw b _ _ _ => Er_enc p r h tw b) key iv Hk Hi _ _ _ _ S1 R1) as [-> _].
  destruct (started_at p r (Er p r) Hp HE key iv Hk Hi s0 S1) as (_ & _ & [B0 _]). unfold bl, skein_lib_stream in B0.
  apply xor_ks_bytes; [lia|]. intros j Hj. rewrite B0 in Hj. rewrite Nat.add_0_l. unfold ks_byte. rewrite Nat.div_small, Nat.mod_small by lia. reflexivity.
Qed.
