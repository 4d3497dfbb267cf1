(** Effects of changed ciphertext. *)
From Coq Require Import NArith Arith Lia List Bool.
From Verif Require Import Lib.Word Lib.Res Lib.Bytes Lib.Lists Lib.BlockLoop Lib.MemLemmas Spec.Block Spec.Cipher Spec.Modes Spec.Sync Model.BlockApi Model.Mem Model.Modes
  Proof.ModesP Proof.ModesBP Proof.ModesFinal Proof.DamageP.
Import ListNotations.
Local Open Scope nat_scope.

Lemma block_beyond bs i l : length l <= i * bs -> block bs i l = [].
Proof. intros H. unfold block, slice. rewrite skipn_all2 by exact H. now destruct bs. Qed.
Lemma xor_bytes_comm a : forall b, xor_bytes a b = xor_bytes b a.
Proof. induction a as [|x a IH]; intros [|y b]; cbn; try reflexivity. now rewrite N.lxor_comm, IH. Qed.
Lemma xor_common x : forall a b, length a = length x -> length b = length x -> xor_bytes (xor_bytes x a) (xor_bytes x b) = xor_bytes a b.
Proof.
  induction x as [|u x IH]; intros [|v a] [|w b] H1 H2; try discriminate; [reflexivity|]. cbn [xor_bytes]. f_equal; [|apply IH; now injection H1; injection H2].
  rewrite (N.lxor_comm u v), N.lxor_assoc, <- (N.lxor_assoc u), N.lxor_nilpotent, N.lxor_0_l. reflexivity.
Qed.
Lemma xor_ks_damage ks l l' i : length l' = length l -> xor_bytes (xor_ks ks i l') (xor_ks ks i l) = xor_bytes l' l.
Proof.
  revert l i. induction l' as [|a l' IH]; intros [|b l] i H; try discriminate; [reflexivity|]. cbn [xor_ks xor_bytes]. f_equal; [|apply IH; now injection H].
  rewrite (N.lxor_comm b), N.lxor_assoc, <- (N.lxor_assoc (ks i)), N.lxor_nilpotent, N.lxor_0_l. reflexivity.
Qed.
Lemma xor_ks_len ks l : forall i, length (xor_ks ks i l) = length l.
Proof. induction l; intros i; cbn; auto. Qed.
Lemma blk_block bs i l : bytes_ok l -> (i + 1) * bs <= length l -> blk bs (block bs i l).
Proof. intros B L. unfold block. split; [apply length_slice; lia|now apply bytes_slice]. Qed.

Section Sync.
  Variable c : bcipher.
  Notation bs := (bc_bs c).
  Variables (r : N) (key iv : list N) (st : bc_st c).
  Hypothesis Hcreate : bc_create c r key = Ok st.
  Hypothesis Hworks : works c st.
  Let Hbs := proj1 Hworks.
  Let Hp := proj2 Hworks.
  Hypothesis Hiv : bytes_ok iv.
  Let f := fn (bc_enc c st).
  Let g := fn (bc_dec c st).
  Let iv' := pad_iv bs iv.

  Lemma fg x : blk bs x -> f (g x) = x.
  Proof. intros H. destruct (dec_ok c st Hp x H) as (_ & _ & E). exact E. Qed.
  Lemma gf x : blk bs x -> g (f x) = x.
  Proof. intros H. destruct (enc_ok c st Hp x H) as (_ & _ & E). exact E. Qed.
  Lemma g_blk x : blk bs x -> blk bs (g x).
  Proof. intros H. destruct (dec_ok c st Hp x H) as (_ & E & _). exact E. Qed.
  Lemma f_blk x : blk bs x -> blk bs (f x).
  Proof. intros H. destruct (enc_ok c st Hp x H) as (_ & E & _). exact E. Qed.

  (** ECB *)
  Lemma ecb_any s0 ct s pt : ecb_blk c s0 = st -> session (ecb_dec_op c) s0 ct s pt ->
    bytes_ok ct /\ length ct mod bs = 0 /\ length pt = length ct /\ forall i, i < length ct / bs -> block bs i pt = g (block bs i ct).
  Proof.
    intros H0 H.
    destruct (session_crun bs (pstep c g) (ecb_inv c st) (ecb_dec_op c) Hbs (ecb_step_d c st Hp)
      (fun s m src dst n => ecb_dec_loop c st Hbs Hp s m src dst n) (ecb_dec_mod c) _ _ _ _ H0 H) as (n & L & B & E & I).
    split; [exact B|]. split; [rewrite L; apply Nat.mod_mul; lia|].
    apply (f_equal snd) in E. cbn [snd] in E. subst pt.
    exact (ecb_crun_spec c Hbs g n s0 ct g_blk B L).
  Qed.
  Theorem ecb_damage i s0 s0' ct ct' s s' pt pt' : ecb_blk c s0 = st -> ecb_blk c s0' = st ->
    session (ecb_dec_op c) s0 ct s pt -> session (ecb_dec_op c) s0' ct' s' pt' -> block_replaced bs i ct ct' -> damage_stays bs i pt pt'.
  Proof.
    intros H0 H0' H H' (L & D & J). destruct (ecb_any _ _ _ _ H0 H) as (B & M & P & G). destruct (ecb_any _ _ _ _ H0' H') as (B' & M' & P' & G').
    assert (Q : length ct = length ct / bs * bs) by (pose proof (Nat.div_mod_eq (length ct) bs); lia).
    assert (Hi : i < length ct / bs).
    { destruct (Nat.lt_ge_cases i (length ct / bs)) as [X|X]; [exact X|]. exfalso. apply D. rewrite !block_beyond by nia. reflexivity. }
    split; [congruence|]. split.
    - rewrite G, G' by congruence. intros E. apply D.
      rewrite <- (fg (block bs i ct')), <- (fg (block bs i ct)) by (apply blk_block; [assumption|nia]). now rewrite E.
    - intros j Hj. destruct (Nat.lt_ge_cases j (length ct / bs)) as [X|X].
      + rewrite G, G' by congruence. now rewrite J.
      + rewrite !block_beyond by nia. reflexivity.
  Qed.

  (** CBC *)
  Lemma cbc_any s0 ct s pt : cbc_create c r key iv = Ok s0 -> session (cbc_decrypt c) s0 ct s pt ->
    bytes_ok ct /\ length ct mod bs = 0 /\ length pt = length ct /\
    forall i, i < length ct / bs -> block bs i pt = xor_bytes (g (block bs i ct)) (match i with O => iv' | S j => block bs j ct end).
  Proof.
    intros H0 H. destruct (cbc_start c r key iv st Hcreate Hiv s0 H0) as (I0 & E0 & _).
    destruct (session_crun bs (cbc_dstep c st) (cbc_inv c st) (cbc_decrypt c) Hbs (cbc_dstep_ok c st Hp)
      (fun s m src dst n => cbc_dec_loop c st Hbs Hp s m src dst n) (cbc_dec_mod c) _ _ _ _ I0 H) as (n & L & B & E & I).
    split; [exact B|]. split; [rewrite L; apply Nat.mod_mul; lia|].
    apply (f_equal snd) in E. cbn [snd] in E. subst pt. fold iv' in E0. rewrite <- E0. clear E0 H0 I H s.
    revert s0 ct I0 L B. induction n as [|n IH]; intros s l Hs Hl Hb.
    - split; [now rewrite Hl|]. rewrite Hl. cbn [Nat.mul]. rewrite Nat.div_0_l by lia. lia.
    - cbn [crun]. destruct (bytes_split bs (n * bs) l Hb Hl) as (H1 & H2 & H3).
      destruct (cbc_dstep_ok c st Hp s _ Hs H1) as [I1 [L1 B1]].
      destruct (IH _ _ I1 H3 H2) as [L G]. cbn [fst snd]. split.
      + rewrite app_length, L, L1, H3, Hl. cbn [Nat.mul]. lia.
      + intros i Hi. rewrite Hl, Nat.div_mul in Hi by lia. destruct i.
        * rewrite block_app_0, block_0 by exact L1. reflexivity.
        * rewrite (block_app_S _ i), block_S by exact L1.
          rewrite G by (rewrite H3, Nat.div_mul by lia; lia). f_equal. destruct i.
          -- now rewrite block_0.
          -- now rewrite block_S.
  Qed.
  Theorem cbc_decrypts_any s0 ct s pt : cbc_create c r key iv = Ok s0 -> session (cbc_decrypt c) s0 ct s pt ->
    cbc_spec bs f iv' pt ct.
  Proof.
    intros H0 H. destruct (cbc_any s0 ct s pt H0 H) as (B & M & P & G). destruct (cbc_start c r key iv st Hcreate Hiv s0 H0) as (_ & _ & Bi).
    assert (Q : length ct = length ct / bs * bs) by (pose proof (Nat.div_mod_eq (length ct) bs); lia).
    split; [congruence|]. intros i Hi. rewrite P in Hi.
    assert (Bp : blk bs (match i with O => iv' | S j => block bs j ct end)) by (destruct i; [exact Bi|apply blk_block; [assumption|nia]]).
    assert (Bc : blk bs (block bs i ct)) by (apply blk_block; [assumption|nia]).
    rewrite G by exact Hi. rewrite xor_bytes_cancel by (rewrite (proj1 (g_blk _ Bc)); apply Bp). symmetry. now apply fg.
  Qed.
  Theorem cbc_damage i s0 ct ct' s s' pt pt' : cbc_create c r key iv = Ok s0 ->
    session (cbc_decrypt c) s0 ct s pt -> session (cbc_decrypt c) s0 ct' s' pt' -> block_replaced bs i ct ct' -> damage_cbc bs i ct ct' pt pt'.
  Proof.
    intros H0 H H' (L & D & J). destruct (cbc_any _ _ _ _ H0 H) as (B & M & P & G). destruct (cbc_any _ _ _ _ H0 H') as (B' & M' & P' & G').
    destruct (cbc_start c r key iv st Hcreate Hiv s0 H0) as (_ & _ & Bi).
    assert (Q : length ct = length ct / bs * bs) by (pose proof (Nat.div_mod_eq (length ct) bs); lia).
    assert (Hi : i < length ct / bs).
    { destruct (Nat.lt_ge_cases i (length ct / bs)) as [X|X]; [exact X|]. exfalso. apply D. rewrite !block_beyond by nia. reflexivity. }
    assert (Bc : forall k, k < length ct / bs -> blk bs (block bs k ct)) by (intros k Hk; apply blk_block; [assumption|nia]).
    assert (Bc' : forall k, k < length ct / bs -> blk bs (block bs k ct')) by (intros k Hk; apply blk_block; [assumption|rewrite L; nia]).
    split; [congruence|]. split; [|split].
    - rewrite G, G' by congruence. intros E. apply D.
      rewrite <- (fg (block bs i ct')), <- (fg (block bs i ct)) by auto. f_equal.
      replace (match i with O => iv' | S j => block bs j ct' end) with (match i with O => iv' | S j => block bs j ct end) in E
        by (destruct i; [reflexivity|symmetry; apply J; lia]).
      apply xor_inj_r in E; [exact E| |].
      + rewrite (proj1 (g_blk _ (Bc' i Hi))). destruct i; [symmetry; apply Bi|symmetry; apply Bc; lia].
      + rewrite (proj1 (g_blk _ (Bc i Hi))). destruct i; [symmetry; apply Bi|symmetry; apply Bc; lia].
    - intros HS. assert (HS' : S i < length ct / bs) by nia. rewrite G, G' by congruence. rewrite (J (S i)) by lia.
      apply xor_common; rewrite (proj1 (g_blk _ (Bc _ HS'))); [apply Bc'; exact Hi|apply Bc; exact Hi].
    - intros j Hj Hj'. destruct (Nat.lt_ge_cases j (length ct / bs)) as [X|X].
      + rewrite G, G' by congruence. rewrite J by exact Hj. f_equal. destruct j; [reflexivity|]. apply J. lia.
      + rewrite !block_beyond by nia. reflexivity.
  Qed.
  (** CFB, decryption block by block into a separate buffer *)
  Lemma cfb_any s0 ct s pt : fb_create c r key iv = Ok s0 -> session (cfb_dec_block c) s0 ct s pt ->
    bytes_ok ct /\ length ct mod bs = 0 /\ length pt = length ct /\
    forall i, i < length ct / bs -> block bs i pt = xor_bytes (f (match i with O => iv' | S j => block bs j ct end)) (block bs i ct).
  Proof.
    intros H0 H. destruct (fb_start c r key iv st Hcreate Hiv s0 H0) as (E1 & E2 & E3 & Bi). fold iv' in E2, Bi.
    assert (W : bytes_ok ct /\ length ct mod bs = 0).
    { clear - H Hbs. induction H as [|s0 m src dst len s1 m1 inp s2 out _ Hb E H IH]; [split; [constructor|now apply Nat.mod_0_l; lia]|].
      unfold cfb_dec_block, assert_ in E. destruct (_ && _)%bool eqn:A in E; [|discriminate]. apply andb_prop in A. destruct A as [A _]. apply Nat.eqb_eq in A. subst len.
      destruct IH as [I1 I2]. split; [now apply bytes_app|]. rewrite app_length, length_rd, Nat.add_comm.
      replace (length inp + bs) with (length inp + 1 * bs) by lia. now rewrite Nat.mod_add by lia. }
    destruct W as [B M]. split; [exact B|]. split; [exact M|].
    assert (S : cfb_spec bs f iv' pt ct).
    { apply (cfb_dec_blocks c st Hworks iv' s0 ct s pt Bi); [|exact H]. destruct s0 as [b p u]; cbn in *. now subst. }
    destruct S as [L S]. split; [now symmetry|]. intros i Hi.
    assert (Q : length ct = length ct / bs * bs) by (pose proof (Nat.div_mod_eq (length ct) bs); lia).
    set (pv := match i with O => iv' | S j => block bs j ct end).
    assert (Bp : blk bs pv) by (subst pv; destruct i; [exact Bi|apply blk_block; [assumption|nia]]).
    pose proof (f_blk _ Bp) as [Lf _].
    assert (Lc : length (block bs i ct) = bs) by (apply blk_block; [assumption|nia]).
    apply nth_ext with (d := 0%N) (d' := 0%N).
    - rewrite length_xor_bytes, Lf by congruence. unfold block. apply length_slice. nia.
    - intros k Hk. unfold block in Hk. rewrite length_slice in Hk by nia. rewrite nth_xor_bytes by congruence.
      unfold block. rewrite !nth_slice by exact Hk. rewrite (S (i * bs + k)) by nia.
      destruct (divmod c Hbs i k Hk) as [-> ->]. fold pv. rewrite N.lxor_comm, lxor_cancel. reflexivity.
  Qed.
  Theorem cfb_damage i s0 ct ct' s s' pt pt' : fb_create c r key iv = Ok s0 ->
    session (cfb_dec_block c) s0 ct s pt -> session (cfb_dec_block c) s0 ct' s' pt' -> block_replaced bs i ct ct' -> damage_cfb bs i ct ct' pt pt'.
  Proof.
    intros H0 H H' (L & D & J). destruct (cfb_any _ _ _ _ H0 H) as (B & M & P & G). destruct (cfb_any _ _ _ _ H0 H') as (B' & M' & P' & G').
    destruct (fb_start c r key iv st Hcreate Hiv s0 H0) as (_ & _ & _ & Bi). fold iv' in Bi.
    assert (Q : length ct = length ct / bs * bs) by (pose proof (Nat.div_mod_eq (length ct) bs); lia).
    assert (Hi : i < length ct / bs).
    { destruct (Nat.lt_ge_cases i (length ct / bs)) as [X|X]; [exact X|]. exfalso. apply D. rewrite !block_beyond by nia. reflexivity. }
    assert (Bc : forall k, k < length ct / bs -> blk bs (block bs k ct)) by (intros k Hk; apply blk_block; [assumption|nia]).
    assert (Bc' : forall k, k < length ct / bs -> blk bs (block bs k ct')) by (intros k Hk; apply blk_block; [assumption|rewrite L; nia]).
    split; [congruence|]. split; [|split].
    - rewrite G, G' by congruence.
      replace (match i with O => iv' | S j => block bs j ct' end) with (match i with O => iv' | S j => block bs j ct end)
        by (destruct i; [reflexivity|symmetry; apply J; lia]).
      assert (Bp : blk bs (match i with O => iv' | S j => block bs j ct end)) by (destruct i; [exact Bi|apply Bc; lia]).
      apply xor_common; rewrite (proj1 (f_blk _ Bp)); [apply Bc'; exact Hi|apply Bc; exact Hi].
    - intros HS. assert (HS' : S i < length ct / bs) by nia. rewrite G, G' by congruence. rewrite (J (S i)) by lia. intros E.
      apply D. apply xor_inj_r in E; [|rewrite (proj1 (Bc _ HS')); apply f_blk; auto..].
      rewrite <- (gf (block bs i ct')), <- (gf (block bs i ct)) by auto. now rewrite E.
    - intros j Hj Hj'. destruct (Nat.lt_ge_cases j (length ct / bs)) as [X|X].
      + rewrite G, G' by congruence. rewrite J by exact Hj. f_equal. f_equal. destruct j; [reflexivity|]. apply J. lia.
      + rewrite !block_beyond by nia. reflexivity.
  Qed.

  Theorem ofb_damage s0 ct ct' s s' pt pt' : fb_create c r key iv = Ok s0 ->
    session (ofb_crypt c) s0 ct s pt -> session (ofb_crypt c) s0 ct' s' pt' -> length ct' = length ct -> damage_bits ct ct' pt pt'.
  Proof.
    intros H0 H H' L. destruct (ofb_crypts c r key iv st Hcreate Hworks Hiv _ _ _ _ H0 H) as [-> _]. destruct (ofb_crypts c r key iv st Hcreate Hworks Hiv _ _ _ _ H0 H') as [-> _].
    split; [now rewrite !xor_ks_len|now apply xor_ks_damage].
  Qed.
  Theorem ctr_damage s0 ct ct' s s' pt pt' : ctr_create c r key iv = Ok s0 ->
    session (ctr_crypt c) s0 ct s pt -> session (ctr_crypt c) s0 ct' s' pt' -> length ct' = length ct -> damage_bits ct ct' pt pt'.
  Proof.
    intros H0 H H' L. destruct (ctr_crypts_lib c r key iv st Hcreate Hworks Hiv _ _ _ _ H0 H) as [-> _]. destruct (ctr_crypts_lib c r key iv st Hcreate Hworks Hiv _ _ _ _ H0 H') as [-> _].
    split; [now rewrite !xor_ks_len|now apply xor_ks_damage].
  Qed.
End Sync.

(** A block is deciphered from itself and the one before, wherever it stands and whatever came earlier. *)
Theorem cbc_resync c r key iv iv2 st (Hcreate : bc_create c r key = Ok st) (Hworks : works c st) (Hiv : bytes_ok iv) (Hiv2 : bytes_ok iv2) i j s0 s0' ct ct' s s' pt pt' :
  cbc_create c r key iv = Ok s0 -> cbc_create c r key iv2 = Ok s0' -> session (cbc_decrypt c) s0 ct s pt -> session (cbc_decrypt c) s0' ct' s' pt' ->
  S i < length ct / bc_bs c -> S j < length ct' / bc_bs c ->
  block (bc_bs c) i ct = block (bc_bs c) j ct' -> block (bc_bs c) (S i) ct = block (bc_bs c) (S j) ct' ->
  block (bc_bs c) (S i) pt = block (bc_bs c) (S j) pt'.
Proof.
  intros H0 H0' H H' Hi Hj E1 E2.
  destruct (cbc_any c r key iv st Hcreate Hworks Hiv _ _ _ _ H0 H) as (_ & _ & _ & G).
  destruct (cbc_any c r key iv2 st Hcreate Hworks Hiv2 _ _ _ _ H0' H') as (_ & _ & _ & G').
  rewrite G, G' by assumption. now rewrite E1, E2.
Qed.
Theorem cfb_resync c r key iv iv2 st (Hcreate : bc_create c r key = Ok st) (Hworks : works c st) (Hiv : bytes_ok iv) (Hiv2 : bytes_ok iv2) i j s0 s0' ct ct' s s' pt pt' :
  fb_create c r key iv = Ok s0 -> fb_create c r key iv2 = Ok s0' -> session (cfb_dec_block c) s0 ct s pt -> session (cfb_dec_block c) s0' ct' s' pt' ->
  S i < length ct / bc_bs c -> S j < length ct' / bc_bs c ->
  block (bc_bs c) i ct = block (bc_bs c) j ct' -> block (bc_bs c) (S i) ct = block (bc_bs c) (S j) ct' ->
  block (bc_bs c) (S i) pt = block (bc_bs c) (S j) pt'.
Proof.
  intros H0 H0' H H' Hi Hj E1 E2.
  destruct (cfb_any c r key iv st Hcreate Hworks Hiv _ _ _ _ H0 H) as (_ & _ & _ & G).
  destruct (cfb_any c r key iv2 st Hcreate Hworks Hiv2 _ _ _ _ H0' H') as (_ & _ & _ & G').
  rewrite G, G' by assumption. now rewrite E1, E2.
Qed.

(** Encryption shows how long the common beginning of two messages is. *)
Theorem cbc_prefix c r key iv st (Hcreate : bc_create c r key = Ok st) (Hworks : works c st) (Hiv : bytes_ok iv) s0 pt pt' s s' ct ct' :
  cbc_create c r key iv = Ok s0 -> session (cbc_encrypt c) s0 pt s ct -> session (cbc_encrypt c) s0 pt' s' ct' -> length pt' = length pt ->
  forall n, n <= length pt / bc_bs c ->
    ((forall j, j < n -> block (bc_bs c) j ct' = block (bc_bs c) j ct) <-> (forall j, j < n -> block (bc_bs c) j pt' = block (bc_bs c) j pt)).
Proof.
  intros H0 H H' L n Hn.
  destruct (cbc_encrypts c r key iv st Hcreate Hworks Hiv _ _ _ _ H0 H) as [[P G] _]. destruct (cbc_encrypts c r key iv st Hcreate Hworks Hiv _ _ _ _ H0 H') as [[P' G'] _].
  destruct (cbc_start c r key iv st Hcreate Hiv s0 H0) as (I0 & _ & Bi).
  destruct (session_crun (bc_bs c) (cbc_estep c st) (cbc_inv c st) (cbc_encrypt c) (proj1 Hworks) (cbc_estep_ok c st (proj2 Hworks))
      (fun s m src dst n => cbc_enc_loop c st (proj1 Hworks) (proj2 Hworks) s m src dst n) (cbc_enc_mod c) _ _ _ _ I0 H) as (k & Lk & B & E & _).
  destruct (session_crun (bc_bs c) (cbc_estep c st) (cbc_inv c st) (cbc_encrypt c) (proj1 Hworks) (cbc_estep_ok c st (proj2 Hworks))
      (fun s m src dst n => cbc_enc_loop c st (proj1 Hworks) (proj2 Hworks) s m src dst n) (cbc_enc_mod c) _ _ _ _ I0 H') as (k' & Lk' & B' & E' & _).
  destruct (crun_ok (bc_bs c) (cbc_estep c st) (cbc_inv c st) (cbc_estep_ok c st (proj2 Hworks)) k s0 pt I0 B Lk) as [_ [_ Bc]].
  destruct (crun_ok (bc_bs c) (cbc_estep c st) (cbc_inv c st) (cbc_estep_ok c st (proj2 Hworks)) k' s0 pt' I0 B' Lk') as [_ [_ Bc']].
  rewrite <- E in Bc. rewrite <- E' in Bc'. cbn [snd] in Bc, Bc'. clear E E'.
  assert (Hbs : 0 < bc_bs c) by apply Hworks. set (bs := bc_bs c) in *.
  assert (Q : length pt = length pt / bs * bs) by (rewrite Lk at 2; rewrite Nat.div_mul by lia; exact Lk).
  assert (BP : forall j, j < length pt / bs -> blk bs (block bs j pt)) by (intros; apply blk_block; [assumption|nia]).
  assert (BP' : forall j, j < length pt / bs -> blk bs (block bs j pt')) by (intros; apply blk_block; [assumption|rewrite L; nia]).
  assert (BC : forall j, j < length pt / bs -> blk bs (match j with O => pad_iv bs iv | S j => block bs j ct end)).
  { intros [|j] Hj; [exact Bi|]. apply blk_block; [assumption|rewrite P; nia]. }
  assert (BC' : forall j, j < length pt / bs -> blk bs (match j with O => pad_iv bs iv | S j => block bs j ct' end)).
  { intros [|j] Hj; [exact Bi|]. apply blk_block; [assumption|rewrite P', L; nia]. }
  split; intros HH.
  - intros j Hj. pose proof (HH j Hj) as X. rewrite G, G' in X by (rewrite ?L; lia).
    replace (match j with O => pad_iv bs iv | S j => block bs j ct' end) with (match j with O => pad_iv bs iv | S j => block bs j ct end) in X
      by (destruct j; [reflexivity|symmetry; apply HH; lia]).
    apply (f_equal (fn (bc_dec c st))) in X.
    rewrite !(gf c st Hworks) in X by (apply blk_xor; first [apply BC; lia|apply BP'; lia|apply BP; lia]).
    apply xor_inj_r in X; [exact X| |].
    + rewrite (proj1 (BP' j ltac:(lia))). symmetry. apply BC. lia.
    + rewrite (proj1 (BP j ltac:(lia))). symmetry. apply BC. lia.
  - intros j. induction j as [|j IH]; intros Hj; rewrite G, G' by (rewrite ?L; lia); rewrite (HH _ Hj); [reflexivity|]. rewrite IH by lia. reflexivity.
Qed.
Lemma ks_damage ks ct ct' pt pt' : pt = xor_ks ks 0 ct -> pt' = xor_ks ks 0 ct' -> length ct' = length ct -> damage_bits ct ct' pt pt'.
Proof. intros -> -> L. split; [now rewrite !xor_ks_len|now apply xor_ks_damage]. Qed.
