(** What ciphertexts show. *)
From Coq Require Import NArith Arith List Bool Lia.
From Verif Require Import Lib.Word Lib.Res Lib.Bytes Lib.XorBytes Lib.Lists Lib.BlockLoop Lib.MemLemmas Spec.Block Spec.Cipher Spec.Modes Spec.Leak Model.BlockApi Model.Mem Model.Modes
  Proof.ModesP Proof.ModesBP Proof.ModesFinal Proof.DamageP Proof.SyncP.
Import ListNotations.
Local Open Scope nat_scope.

Lemma session_in {S} (op : S -> mem -> nat -> nat -> nat -> res (S * mem)) s inp s' out : session op s inp s' out -> bytes_ok inp.
Proof. induction 1 as [|? ? ? ? ? ? ? ? ? ? _ B _ _ IH]; [constructor|]. apply bytes_app. now split. Qed.
(** x + a = y + b is x + y = a + b *)
Lemma xor_swap n x a y b : blk n x -> blk n a -> blk n y -> blk n b -> (xor_bytes x a = xor_bytes y b <-> xor_bytes x y = xor_bytes a b).
Proof.
  assert (G : forall x a y b, blk n x -> blk n a -> blk n y -> blk n b -> xor_bytes x a = xor_bytes y b -> xor_bytes x y = xor_bytes a b).
  { clear. intros x a y b [X _] [A _] [Y _] [B _] E. apply (f_equal (fun t => xor_bytes t (xor_bytes a y))) in E. rewrite (xor_comm y b) in E.
    rewrite !xor_assoc in E. rewrite <- (xor_assoc a a y), xor_same, A, <- Y, xor_zeros_l in E. rewrite E, (xor_comm a y), <- (xor_assoc y y a), xor_same, Y, <- A, xor_zeros_l. apply xor_comm. }
  intros X A Y B. split; [now apply G|]. intros E. now apply G.
Qed.

Section Leak.
  Variable c : bcipher.
  Notation bs := (bc_bs c).
  Variables (r : N) (key : list N) (st : bc_st c).
  Hypothesis Hcreate : bc_create c r key = Ok st.
  Hypothesis Hworks : works c st.
  Let Hbs := proj1 Hworks.
  Let Hp := proj2 Hworks.
  Let f := fn (bc_enc c st).
  Let fb := f_blk c st Hworks : forall x, blk bs x -> blk bs (f x).

  Lemma finj a b : blk bs a -> blk bs b -> (f a = f b <-> a = b).
  Proof. intros Ha Hb. split; [|now intros ->]. intros E. rewrite <- (gf c st Hworks a Ha), <- (gf c st Hworks b Hb). fold f. now rewrite E. Qed.
  Lemma in_blk i (l : list N) : bytes_ok l -> i < length l / bs -> blk bs (block bs i l).
  Proof. intros B H. apply blk_block; [exact B|]. pose proof (Nat.mul_div_le (length l) bs ltac:(lia)). nia. Qed.

  Theorem ecb_shows iv iv' s0 s0' s s' pt pt' ct ct' : ecb_create c r key iv = Ok s0 -> ecb_create c r key iv' = Ok s0' ->
    session (ecb_enc_op c) s0 pt s ct -> session (ecb_enc_op c) s0' pt' s' ct' ->
    forall i j, i < length pt / bs -> j < length pt' / bs -> (block bs i ct = block bs j ct' <-> block bs i pt = block bs j pt').
  Proof.
    intros H0 H0' H H' i j Hi Hj. destruct (ecb_encrypts c r key iv st Hcreate Hworks s0 s pt ct H0 H) as [[_ E] _]. destruct (ecb_encrypts c r key iv' st Hcreate Hworks s0' s' pt' ct' H0' H') as [[_ E'] _].
    rewrite (E i Hi), (E' j Hj). apply finj; apply in_blk; try assumption; eapply session_in; eassumption.
  Qed.

  Lemma chained_blk iv pt ct : blk bs iv -> bytes_ok pt -> cbc_spec bs f iv pt ct -> forall i, i < length pt / bs -> blk bs (chained bs iv ct i) /\ blk bs (block bs i ct).
  Proof.
    intros Bi Bp [_ E] i. induction i as [|i IH]; intros Hi.
    - split; [exact Bi|]. rewrite E by exact Hi. apply fb, blk_xor; [now apply in_blk|exact Bi].
    - destruct IH as [_ IH]; [lia|]. split; [exact IH|]. rewrite E by exact Hi. apply fb, blk_xor; [now apply in_blk|exact IH].
  Qed.
  Theorem cbc_shown iv iv' s0 s0' s s' pt pt' ct ct' : bytes_ok iv -> bytes_ok iv' -> cbc_create c r key iv = Ok s0 -> cbc_create c r key iv' = Ok s0' ->
    session (cbc_encrypt c) s0 pt s ct -> session (cbc_encrypt c) s0' pt' s' ct' -> cbc_shows bs (pad_iv bs iv) pt ct (pad_iv bs iv') pt' ct'.
  Proof.
    intros Bi Bi' H0 H0' H H' i j Hi Hj.
    destruct (cbc_encrypts c r key iv st Hcreate Hworks Bi s0 s pt ct H0 H) as [E _]. destruct (cbc_encrypts c r key iv' st Hcreate Hworks Bi' s0' s' pt' ct' H0' H') as [E' _].
    destruct (cbc_start c r key iv st Hcreate Bi s0 H0) as (_ & _ & B). destruct (cbc_start c r key iv' st Hcreate Bi' s0' H0') as (_ & _ & B').
    pose proof (session_in _ _ _ _ _ H) as P. pose proof (session_in _ _ _ _ _ H') as P'.
    destruct (chained_blk _ _ _ B P E i Hi) as [C _]. destruct (chained_blk _ _ _ B' P' E' j Hj) as [C' _].
    destruct E as [_ E]. destruct E' as [_ E']. rewrite (E i Hi), (E' j Hj). fold (chained bs (pad_iv bs iv) ct i). fold (chained bs (pad_iv bs iv') ct' j).
    pose proof (in_blk i pt P Hi) as Q. pose proof (in_blk j pt' P' Hj) as Q'. fold f. rewrite finj by (apply blk_xor; assumption). exact (xor_swap bs _ _ _ _ Q C Q' C').
  Qed.

  Lemma cfb_block iv pt ct : blk bs iv -> bytes_ok pt -> cfb_spec bs f iv pt ct -> forall i, i < length pt / bs ->
    blk bs (chained bs iv ct i) /\ blk bs (block bs i ct) /\ block bs i ct = xor_bytes (block bs i pt) (f (chained bs iv ct i)).
  Proof.
    intros Bi Bp [L E]. pose proof (Nat.mul_div_le (length pt) bs ltac:(lia)) as D.
    assert (G : forall i, i < length pt / bs -> blk bs (chained bs iv ct i) -> blk bs (block bs i ct) /\ block bs i ct = xor_bytes (block bs i pt) (f (chained bs iv ct i))).
    { intros i Hi C. pose proof (in_blk i pt Bp Hi) as P. pose proof (fb _ C) as F. assert (Q : block bs i ct = xor_bytes (block bs i pt) (f (chained bs iv ct i))); [|split; [rewrite Q; now apply blk_xor|exact Q]].
      assert (LB : length (block bs i ct) = bs) by (unfold block; apply length_slice; nia).
      apply (nth_ext _ _ 0%N 0%N); [rewrite LB, length_xor, (proj1 P), (proj1 F); lia|]. rewrite LB. intros u Hu. rewrite nth_xor by (rewrite ?(proj1 P), ?(proj1 F); exact Hu).
      unfold block. rewrite !nth_slice by exact Hu. rewrite E by nia. replace (i * bs + u) with (u + i * bs) by lia. rewrite Nat.mod_add, Nat.div_add, (Nat.mod_small u), (Nat.div_small u) by lia. reflexivity. }
    induction i as [|i IH]; intros Hi; [split; [exact Bi|]; now apply G|]. assert (C : blk bs (chained bs iv ct (S i))) by (cbn [chained]; apply IH; lia).
    split; [exact C|]. now apply G.
  Qed.
  Theorem cfb_shown iv iv' s0 s0' s s' pt pt' ct ct' : bytes_ok iv -> bytes_ok iv' -> fb_create c r key iv = Ok s0 -> fb_create c r key iv' = Ok s0' ->
    session (cfb_encrypt c) s0 pt s ct -> session (cfb_encrypt c) s0' pt' s' ct' -> cfb_shows bs (pad_iv bs iv) pt ct (pad_iv bs iv') pt' ct'.
  Proof.
    intros Bi Bi' H0 H0' H H' i j Hi Hj.
    destruct (cfb_encrypts c r key iv st Hcreate Hworks Bi s0 s pt ct H0 H) as [E _]. destruct (cfb_encrypts c r key iv' st Hcreate Hworks Bi' s0' s' pt' ct' H0' H') as [E' _].
    destruct (fb_start c r key iv st Hcreate Bi s0 H0) as (_ & _ & _ & B). destruct (fb_start c r key iv' st Hcreate Bi' s0' H0') as (_ & _ & _ & B').
    pose proof (session_in _ _ _ _ _ H) as P. pose proof (session_in _ _ _ _ _ H') as P'.
    destruct (cfb_block _ _ _ B P E i Hi) as (C & K & X). destruct (cfb_block _ _ _ B' P' E' j Hj) as (C' & K' & X').
    pose proof (in_blk i pt P Hi) as Q. pose proof (in_blk j pt' P' Hj) as Q'. rewrite <- (finj _ _ C C').
    assert (Y : f (chained bs (pad_iv bs iv) ct i) = xor_bytes (block bs i pt) (block bs i ct)).
    { rewrite X, <- xor_assoc, xor_same, (proj1 Q). symmetry. rewrite <- (proj1 (fb _ C)) at 1. apply xor_zeros_l. }
    assert (Y' : f (chained bs (pad_iv bs iv') ct' j) = xor_bytes (block bs j pt') (block bs j ct')).
    { rewrite X', <- xor_assoc, xor_same, (proj1 Q'). symmetry. rewrite <- (proj1 (fb _ C')) at 1. apply xor_zeros_l. }
    rewrite Y, Y'. exact (xor_swap bs _ _ _ _ Q K Q' K').
  Qed.

  (** key streams *)
  Lemma ks_blocks (B : nat -> list N) out : (forall i, blk bs (B i)) -> out = map (ks_byte bs B) (seq 0 (length out)) -> forall i, S i * bs <= length out -> block bs i out = B i.
  Proof.
    intros HB E i Hi. cbn [Nat.mul] in Hi. unfold block. apply nth_ext with (d := 0%N) (d' := 0%N).
    - rewrite length_slice by lia. symmetry. apply HB.
    - rewrite length_slice by lia. intros u Hu. rewrite nth_slice by exact Hu. rewrite E.
      rewrite (nth_indep _ 0%N (ks_byte bs B 0)) by (rewrite map_length, seq_length; lia).
      rewrite (map_nth (ks_byte bs B)), seq_nth by lia. cbn [Nat.add]. unfold ks_byte. destruct (divmod c Hbs i u Hu) as [-> ->]. reflexivity.
  Qed.
  Lemma ofb_blk iv i : blk bs iv -> blk bs (ofb_block f iv i).
  Proof. intros B. induction i as [|i IH]; cbn [ofb_block]; now apply fb. Qed.
  Lemma ofb_back iv i : forall j, blk bs iv -> i < j -> (ofb_block f iv i = ofb_block f iv j <-> ofb_block f iv (j - i - 1) = iv).
  Proof.
    induction i as [|i IH]; intros [|j] B H; try lia.
    - cbn [ofb_block]. replace (S j - 0 - 1) with j by lia. rewrite finj by (try exact B; now apply ofb_blk). split; intros E; symmetry; exact E.
    - cbn [ofb_block]. replace (S j - S i - 1) with (j - i - 1) by lia. rewrite finj by now apply ofb_blk. apply IH; [exact B|lia].
  Qed.
  Theorem ofb_repeats iv s0 s out : bytes_ok iv -> fb_create c r key iv = Ok s0 -> gsession (fb_prng c) s0 s out ->
    forall i j, i < j -> S j * bs <= length out -> (block bs i out = block bs j out <-> block bs (j - i - 1) out = pad_iv bs iv).
  Proof.
    intros Bi H0 H i j Hij Hj. destruct (ofb_prngs c r key iv st Hcreate Hworks Bi s0 s out H0 H) as [E _]. destruct (fb_start c r key iv st Hcreate Bi s0 H0) as (_ & _ & _ & B).
    assert (K : forall k, k <= j -> block bs k out = ofb_block f (pad_iv bs iv) k).
    { intros k Hk. apply (ks_blocks (ofb_block f (pad_iv bs iv))); [intros u; now apply ofb_blk|exact E|nia]. }
    rewrite !K by lia. now apply ofb_back.
  Qed.
  Lemma ctr_at_same iv iv' i j : blk bs iv -> blk bs iv' -> (ctr_at iv i = ctr_at iv' j <-> nth 0 iv 0%N = nth 0 iv' 0%N /\
    ((be_val (skipn 1 iv) + N.of_nat i) mod 256 ^ N.of_nat (bs - 1) = (be_val (skipn 1 iv') + N.of_nat j) mod 256 ^ N.of_nat (bs - 1))%N).
  Proof.
    intros [L _] [L' _]. destruct iv as [|a t]; [cbn in L; lia|]. destruct iv' as [|a' t']; [cbn in L'; lia|]. cbn [ctr_at nth skipn].
    assert (Lt : length t = bs - 1) by (cbn in L; lia). assert (Lt' : length t' = bs - 1) by (cbn in L'; lia). rewrite Lt, Lt'.
    assert (M : (256 ^ N.of_nat (bs - 1) <> 0)%N) by (apply N.pow_nonzero; lia). split.
    - intros E. injection E as Ea Et. split; [exact Ea|]. apply (be_bytes_inj (bs - 1)) in Et; [exact Et|apply N.mod_lt, M|apply N.mod_lt, M].
    - intros [-> ->]. reflexivity.
  Qed.
  Theorem ctr_repeats iv iv' s0 s0' s s' out out' : bytes_ok iv -> bytes_ok iv' -> ctr_create c r key iv = Ok s0 -> ctr_create c r key iv' = Ok s0' ->
    gsession (ctr_prng c) s0 s out -> gsession (ctr_prng c) s0' s' out' -> forall i j, S i * bs <= length out -> S j * bs <= length out' ->
    (block bs i out = block bs j out' <-> nth 0 (pad_iv bs iv) 0%N = nth 0 (pad_iv bs iv') 0%N /\
      ((be_val (skipn 1 (pad_iv bs iv)) + N.of_nat i) mod 256 ^ N.of_nat (bs - 1) = (be_val (skipn 1 (pad_iv bs iv')) + N.of_nat j) mod 256 ^ N.of_nat (bs - 1))%N).
  Proof.
    intros Bi Bi' H0 H0' H H' i j Hi Hj. destruct (ctr_prngs_lib c r key iv st Hcreate Hworks Bi s0 s out H0 H) as [E _]. destruct (ctr_prngs_lib c r key iv' st Hcreate Hworks Bi' s0' s' out' H0' H') as [E' _].
    destruct (ctr_start c r key iv st Hcreate Bi s0 H0) as (_ & B). destruct (ctr_start c r key iv' st Hcreate Bi' s0' H0') as (_ & B').
    rewrite (ks_blocks (fun k => f (ctr_at (pad_iv bs iv) k)) out (fun k => fb _ (ctr_at_blk _ _ k B)) E i Hi), (ks_blocks (fun k => f (ctr_at (pad_iv bs iv') k)) out' (fun k => fb _ (ctr_at_blk _ _ k B')) E' j Hj).
    rewrite finj by (now apply ctr_at_blk). now apply ctr_at_same.
  Qed.

  (** OFB is CBC and CFB of zeros *)
  Lemma block_zeros i n : S i * bs <= n -> block bs i (repeat 0%N n) = repeat 0%N bs.
  Proof. intros H. cbn [Nat.mul] in H. unfold block, slice. replace n with (i * bs + (bs + (n - i * bs - bs))) at 1 by lia. rewrite !repeat_app, skipn_app, skipn_all2 by (rewrite repeat_length; lia). rewrite repeat_length, Nat.sub_diag. cbn [app skipn]. rewrite firstn_app, repeat_length, Nat.sub_diag. cbn [firstn]. rewrite app_nil_r. apply firstn_all2. rewrite repeat_length. lia. Qed.
  Theorem cbc_zeros iv s0 s0' s s' n out out' : bytes_ok iv -> cbc_create c r key iv = Ok s0 -> fb_create c r key iv = Ok s0' ->
    session (cbc_encrypt c) s0 (repeat 0%N (n * bs)) s out -> gsession (fb_prng c) s0' s' out' -> length out' = n * bs -> out = out'.
  Proof.
    intros Bi H0 H0' H H' L'. destruct (cbc_encrypts c r key iv st Hcreate Hworks Bi s0 s _ out H0 H) as [[L E] _]. rewrite repeat_length in L, E. rewrite Nat.div_mul in E by lia.
    destruct (ofb_prngs c r key iv st Hcreate Hworks Bi s0' s' out' H0' H') as [E' _]. destruct (fb_start c r key iv st Hcreate Bi s0' H0') as (_ & _ & _ & B).
    assert (G : forall i, i < n -> block bs i out = ofb_block f (pad_iv bs iv) i).
    { induction i as [|i IH]; intros Hi; rewrite E by exact Hi; rewrite block_zeros by nia; fold f; cbn [ofb_block]; f_equal.
      - rewrite <- (proj1 B) at 1. apply xor_zeros_l.
      - rewrite IH by lia. rewrite <- (proj1 (ofb_blk _ i B)) at 1. apply xor_zeros_l. }
    apply (blocks_eq bs); [exact Hbs|congruence|]. intros j. destruct (Nat.lt_ge_cases j n) as [Hj|Hj].
    - rewrite G by exact Hj. symmetry. apply (ks_blocks (ofb_block f (pad_iv bs iv))); [intros u; now apply ofb_blk|exact E'|rewrite L'; nia].
    - rewrite !block_beyond by nia. reflexivity.
  Qed.
  Theorem cfb_zeros iv s0 s0' s s' n out out' : bytes_ok iv -> fb_create c r key iv = Ok s0 -> fb_create c r key iv = Ok s0' ->
    session (cfb_encrypt c) s0 (repeat 0%N n) s out -> gsession (fb_prng c) s0' s' out' -> length out' = n -> out = out'.
  Proof.
    intros Bi H0 H0' H H' L'. destruct (cfb_encrypts c r key iv st Hcreate Hworks Bi s0 s _ out H0 H) as [E _].
    destruct (ofb_prngs c r key iv st Hcreate Hworks Bi s0' s' out' H0' H') as [E' _]. destruct (fb_start c r key iv st Hcreate Bi s0' H0') as (_ & _ & _ & B).
    pose proof (cfb_block _ _ _ B (session_in _ _ _ _ _ H) E) as C. destruct E as [L E]. rewrite repeat_length in L, E, C.
    assert (G : forall i, i < n / bs -> block bs i out = ofb_block f (pad_iv bs iv) i).
    { intros i. pose proof (Nat.mul_div_le n bs ltac:(lia)) as D. induction i as [|i IH]; intros Hi; destruct (C _ Hi) as (_ & _ & ->); rewrite block_zeros by nia; cbn [ofb_block chained].
      - rewrite <- (proj1 (fb _ B)) at 1. apply xor_zeros_l.
      - rewrite IH by lia. rewrite <- (proj1 (fb _ (ofb_blk _ i B))) at 1. apply xor_zeros_l. }
    apply (nth_ext _ _ 0%N 0%N); [congruence|]. intros k Hk. rewrite E by lia. rewrite E'.
    rewrite (nth_indep (map _ _) 0%N (ofb_ks bs f (pad_iv bs iv) 0)) by (rewrite map_length, seq_length; lia). rewrite map_nth, seq_nth by lia. cbn [Nat.add].
    rewrite nth_repeat, N.lxor_0_l. unfold ofb_ks, ks_byte. f_equal. fold f. destruct (k / bs) as [|q] eqn:Eq; [reflexivity|]. cbn [ofb_block]. f_equal. apply G.
    assert (S q <= n / bs) by (rewrite <- Eq; apply Nat.div_le_mono; lia). lia.
  Qed.
End Leak.
