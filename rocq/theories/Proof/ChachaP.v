(** ChaCha: the model computes the specified key stream. *)
From Coq Require Import String NArith Arith List Bool Lia.
From Verif Require Import Lib.Word Lib.Res Lib.Bytes Lib.WordSpec Model.LoadStore Proof.LoadStoreP Model.Mem Model.Modes Model.Chacha
  Spec.Words Spec.Modes Spec.Chacha Lib.MemLemmas Lib.KeyStreamB.
Import ListNotations.
Local Open Scope N_scope.

Definition st16 (x : list N) : Prop := length x = 16%nat /\ words_ok 32 x.
Lemma st16_16 x : st16 x -> exists a b c d e f g h i j k l m n o p, x = [a; b; c; d; e; f; g; h; i; j; k; l; m; n; o; p] /\
  (inw 32 a /\ inw 32 b /\ inw 32 c /\ inw 32 d) /\ (inw 32 e /\ inw 32 f /\ inw 32 g /\ inw 32 h) /\
  (inw 32 i /\ inw 32 j /\ inw 32 k /\ inw 32 l) /\ (inw 32 m /\ inw 32 n /\ inw 32 o /\ inw 32 p).
Proof.
  intros [L W]. do 16 (destruct x as [|? x]; [discriminate L|]). destruct x; [|discriminate L].
  do 16 eexists. split; [reflexivity|]. unfold words_ok in W.
  repeat match goal with H : Forall _ (_ :: _) |- _ => apply Forall_cons_iff in H; destruct H end. auto 20.
Qed.
Lemma words_cons w x l : inw w x -> words_ok w l -> words_ok w (x :: l).
Proof. intros. now constructor. Qed.
Lemma words_nil w : words_ok w [].
Proof. constructor. Qed.
Lemma words_app w a b : words_ok w a -> words_ok w b -> words_ok w (a ++ b).
Proof. intros. now apply Forall_app. Qed.
Lemma words_upd w x i v : words_ok w x -> inw w v -> words_ok w (upd x i v).
Proof. revert i. induction x as [|a x IH]; intros i H Hv; destruct i; cbn [upd]; try exact H; inversion H; constructor; auto. now apply IH. Qed.

Definition q4 (x : N * N * N * N) : Prop := let '(a, b, c, d) := x in inw 32 a /\ inw 32 b /\ inw 32 c /\ inw 32 d.
Lemma cc_qr_quarter a b c d : inw 32 a -> inw 32 b -> inw 32 c -> inw 32 d -> cc_qr a b c d = chacha_quarter a b c d.
Proof.
  intros. unfold cc_qr, chacha_quarter. cbv zeta. rewrite <- !plus_w_wadd.
  rewrite <- !rol_rotl by (try wb; try discriminate). reflexivity.
Qed.
Lemma cc_qr_inw a b c d : inw 32 a -> inw 32 b -> inw 32 c -> inw 32 d -> q4 (cc_qr a b c d).
Proof. intros. unfold cc_qr, q4. cbv zeta. repeat split; wb. Qed.

Lemma qr_at_st qr x i : (forall a b c d, inw 32 a -> inw 32 b -> inw 32 c -> inw 32 d -> q4 (qr a b c d)) ->
  st16 x -> st16 (qr_at qr x i).
Proof.
  intros Hq [L W]. destruct i as [[[a b] c] d]. unfold qr_at.
  pose proof (Hq (nth a x 0) (nth b x 0) (nth c x 0) (nth d x 0)) as H.
  destruct (qr _ _ _ _) as [[[va vb] vc] vd]. destruct H as (A & B & C & D); try now apply words_nth.
  split; [now rewrite !length_upd|]. now repeat apply words_upd.
Qed.
Lemma fold_qr_st qr is x : (forall a b c d, inw 32 a -> inw 32 b -> inw 32 c -> inw 32 d -> q4 (qr a b c d)) ->
  st16 x -> st16 (fold_left (qr_at qr) is x).
Proof. intros Hq. revert x. induction is as [|i is IH]; intros x H; [exact H|]. cbn [fold_left]. now apply IH, qr_at_st. Qed.

Lemma cc_columns_round x : st16 x -> fold_left (qr_at cc_qr) cc_columns x = chacha_column_round x.
Proof.
  intros H. apply st16_16 in H. destruct H as (a & b & c & d & e & f & g & h & i & j & k & l & m & n & o & p & -> & ? & ? & ? & ?).
  unfold cc_columns, fold_left, qr_at. cbn [nth].
  rewrite !cc_qr_quarter by tauto.
  unfold chacha_column_round, matrix, cell. cbn [seq map nth Nat.div Nat.modulo Nat.divmod Nat.mul Nat.add fst snd Nat.sub].
  destruct (chacha_quarter a e i m) as [[[? ?] ?] ?]; cbn [upd nth part]; rewrite ?cc_qr_quarter by tauto.
  destruct (chacha_quarter b f j n) as [[[? ?] ?] ?]; cbn [upd nth part]; rewrite ?cc_qr_quarter by tauto.
  destruct (chacha_quarter c g k o) as [[[? ?] ?] ?]; cbn [upd nth part]; rewrite ?cc_qr_quarter by tauto.
  destruct (chacha_quarter d h l p) as [[[? ?] ?] ?]; cbn [upd nth part]. reflexivity.
Qed.
Lemma cc_diagonals_round x : st16 x -> fold_left (qr_at cc_qr) cc_diagonals x = chacha_diagonal_round x.
Proof.
  intros H. apply st16_16 in H. destruct H as (a & b & c & d & e & f & g & h & i & j & k & l & m & n & o & p & -> & ? & ? & ? & ?).
  unfold cc_diagonals, fold_left, qr_at. cbn [nth].
  rewrite !cc_qr_quarter by tauto.
  unfold chacha_diagonal_round, chacha_column_round, matrix, cell.
  cbn [seq map nth Nat.div Nat.modulo Nat.divmod Nat.mul Nat.add fst snd Nat.sub].
  destruct (chacha_quarter a f k p) as [[[? ?] ?] ?]; cbn [upd nth part]; rewrite ?cc_qr_quarter by tauto.
  destruct (chacha_quarter b g l m) as [[[? ?] ?] ?]; cbn [upd nth part]; rewrite ?cc_qr_quarter by tauto.
  destruct (chacha_quarter c h i n) as [[[? ?] ?] ?]; cbn [upd nth part]; rewrite ?cc_qr_quarter by tauto.
  destruct (chacha_quarter d e j o) as [[[? ?] ?] ?]; cbn [upd nth part]. reflexivity.
Qed.
Lemma cc_rounds_eq r x : st16 x -> cc_rounds r x = chacha_rounds (N.to_nat r) x /\ st16 (cc_rounds r x).
Proof.
  intros H. unfold cc_rounds. induction (N.to_nat r) as [|n [IH S]]; [auto|]. rewrite pfor_S. cbn [chacha_rounds].
  rewrite <- IH. cbn [Nat.add]. destruct (Nat.even n).
  - split; [now apply cc_columns_round|]. apply fold_qr_st; [apply cc_qr_inw|exact S].
  - split; [now apply cc_diagonals_round|]. apply fold_qr_st; [apply cc_qr_inw|exact S].
Qed.
Lemma add_words_map2 a b : add_words a b = map2 (plus_w 32) a b.
Proof.
  revert b. induction a as [|x a IH]; intros [|y b]; try reflexivity. unfold map2 in *. cbn [add_words combine map fst snd].
  now rewrite plus_w_wadd, IH.
Qed.
Lemma cc_core_block r x : st16 x -> cc_core r x = chacha_block (N.to_nat r) x.
Proof.
  intros H. unfold cc_core, chacha_block. rewrite stores32l_le, add_words_map2. now destruct (cc_rounds_eq r x H) as [-> _].
Qed.

(** ** Set up *)
Lemma key_words_eq key : bytes_ok key -> key_words key = le_words 4 8 (repeated 32 key).
Proof.
  intros Hb. transitivity (key32l (repeated 32 key) 8).
  - unfold key32l, load32l_array, load_array, key_words. rewrite length_repeated. apply pfor_ext. intros i k Hi.
    f_equal. f_equal. unfold b_. rewrite nth_repeated by lia. reflexivity.
  - rewrite key32l_loads by (try (now apply bytes_repeated); rewrite length_repeated; lia).
    rewrite loads32l_le by (try (now apply bytes_repeated); rewrite length_repeated; lia).
    rewrite zero_pad_full; [reflexivity|]. rewrite length_repeated. lia.
Qed.
Lemma key_consts_eq n : (n <= 32)%nat -> key_consts (N.of_nat n) = le_words 4 4 (expand_text n).
Proof.
  intros H. assert (E : forallb (fun n => if list_eq_dec N.eq_dec (key_consts (N.of_nat n)) (le_words 4 4 (expand_text n)) then true else false) (seq 0 33) = true)
    by (vm_compute; reflexivity).
  rewrite forallb_forall in E. specialize (E n). rewrite in_seq in E.
  destruct (list_eq_dec N.eq_dec (key_consts (N.of_nat n)) (le_words 4 4 (expand_text n))); [assumption|]. discriminate E. lia.
Qed.
Lemma load32l_array_firstn iv w n : load32l_array iv w n = load32l_array (firstn n iv) w n.
Proof.
  unfold load32l_array, load_array. apply pfor_ext. intros i d Hi. unfold b_. f_equal. f_equal. f_equal.
  rewrite nth_firstn by lia. reflexivity.
Qed.
Lemma load_words iv n k : bytes_ok iv -> (n <= length iv)%nat -> (n <= 4 * k)%nat ->
  load32l_array iv (repeat 0 k) n = le_words 4 k (zero_pad (4 * k) (firstn n iv)).
Proof.
  intros Hb Hn Hk. rewrite load32l_array_firstn. assert (L : length (firstn n iv) = n) by (rewrite firstn_length; lia).
  rewrite <- L at 2. fold (key32l (firstn n iv) k). rewrite key32l_loads by (try (now apply bytes_firstn); lia).
  rewrite loads32l_le by (try (now apply bytes_firstn); lia). reflexivity.
Qed.
Lemma le_words_ok n l : bytes_ok l -> words_ok 32 (le_words 4 n l).
Proof.
  intros H. apply Forall_forall. intros x Hx. apply in_map_iff in Hx. destruct Hx as (i & <- & _).
  pose proof (le_val_bound (slice (4 * i) 4 l) (bytes_slice _ _ _ H)) as B. unfold inw.
  eapply N.lt_le_trans; [exact B|]. change (2 ^ 32) with (256 ^ N.of_nat 4). apply N.pow_le_mono_r; [discriminate|].
  unfold slice. rewrite firstn_length. lia.
Qed.
Lemma expand_ok n : (n <= 32)%nat -> bytes_ok (expand_text n).
Proof.
  intros H. unfold expand_text. rewrite !bytes_app. split; [|split]; [repeat constructor| |repeat constructor].
  assert (n / 10 <= 3)%nat by (apply Nat.lt_succ_r, Nat.div_lt_upper_bound; lia).
  pose proof (Nat.mod_upper_bound n 10 ltac:(discriminate)).
  unfold digit. repeat constructor; lia.
Qed.
Lemma chacha_head_ok key : bytes_ok key -> (length key <= 32)%nat -> length (chacha_head key) = 12%nat /\ words_ok 32 (chacha_head key).
Proof.
  intros H L. unfold chacha_head. rewrite app_length, !length_le_words. split; [reflexivity|].
  apply words_app; apply le_words_ok; [now apply expand_ok|now apply bytes_repeated].
Qed.

(** ** The 64 bit counter *)
Definition ctr2 (c : N) : list N := le_words 4 2 (le_bytes 8 c).
Lemma ctr2_eq c : c < 2 ^ 64 -> ctr2 c = [c mod 2 ^ 32; c / 2 ^ 32].
Proof.
  intros H. unfold ctr2, le_words. cbn [seq map]. f_equal; [|f_equal].
  - change (slice (4 * 0) 4 (le_bytes 8 c)) with (le_bytes 4 c). now rewrite le_val_bytes.
  - change (slice (4 * 1) 4 (le_bytes 8 c)) with (le_bytes 4 (c / 256 / 256 / 256 / 256)).
    rewrite le_val_bytes, !N.div_div by discriminate. change (256 * 256 * 256 * 256) with (2 ^ 32).
    apply N.mod_small. apply N.div_lt_upper_bound; [discriminate|exact H].
Qed.
Lemma nth_mid {A} (a : list A) x b d : nth (length a) (a ++ x :: b) d = x.
Proof. induction a; cbn; auto. Qed.
Lemma upd_mid {A} (a : list A) x b v : upd (a ++ x :: b) (length a) v = a ++ v :: b.
Proof. induction a; cbn; [reflexivity|]. now rewrite IHa. Qed.
Lemma count_up_ok pre post c : c < 2 ^ 64 ->
  count_up (length pre) (pre ++ ctr2 c ++ post) =
  if c + 1 <? 2 ^ 64 then Ok (pre ++ ctr2 (c + 1) ++ post) else Err AssertFail.
Proof.
  intros H. rewrite ctr2_eq by exact H. cbn [app]. unfold count_up. rewrite nth_mid, upd_mid. cbv zeta.
  rewrite wadd_mod. set (lo := c mod 2 ^ 32). set (hi := c / 2 ^ 32).
  assert (E : c = 2 ^ 32 * hi + lo) by (apply N.div_mod; discriminate).
  assert (L : lo < 2 ^ 32) by (apply N.mod_upper_bound; discriminate).
  assert (Hh : hi < 2 ^ 32) by (apply N.div_lt_upper_bound; [discriminate|exact H]).
  clearbody lo hi. change (2 ^ 64) with 18446744073709551616 in *. change (2 ^ 32) with 4294967296 in *.
  destruct (N.eq_dec lo 4294967295) as [->|Hlo].
  - change ((4294967295 + 1) mod 4294967296) with 0. cbn [N.eqb].
    replace (length pre + 1)%nat with (length (pre ++ [0])) by (now rewrite app_length).
    change (pre ++ 0 :: hi :: post) with (pre ++ [0] ++ hi :: post). rewrite (app_assoc pre [0]).
    rewrite nth_mid, upd_mid, <- app_assoc. rewrite wadd_mod.
    change (2 ^ 32) with 4294967296.
    destruct (N.ltb_spec (c + 1) 18446744073709551616) as [A|A].
    + rewrite N.mod_small by lia. destruct (N.eqb_spec (hi + 1) 0) as [|_]; [lia|]. cbn [negb assert_].
      rewrite ctr2_eq by exact A. change (2 ^ 32) with 4294967296. cbn [app]. apply f_equal, f_equal. apply f_equal2; [|apply f_equal2; [|reflexivity]].
      * rewrite E. apply N.mod_unique with (q := hi + 1); lia.
      * rewrite E. apply N.div_unique with (r := 0); lia.
    + replace hi with 4294967295 by lia. reflexivity.
  - rewrite N.mod_small by lia. destruct (N.eqb_spec (lo + 1) 0) as [|_]; [lia|].
    destruct (N.ltb_spec (c + 1) 18446744073709551616) as [A|A]; [|lia].
    rewrite ctr2_eq by exact A. change (2 ^ 32) with 4294967296. cbn [app]. apply f_equal, f_equal. apply f_equal2; [|apply f_equal2; [|reflexivity]].
    + rewrite E. apply N.mod_unique with (q := hi); lia.
    + rewrite E. apply N.div_unique with (r := lo + 1); lia.
Qed.
Lemma ctr2_ok c : words_ok 32 (ctr2 c).
Proof. apply le_words_ok, bytes_le_bytes. Qed.

(** ** The running stream *)
Section Stream.
  Variables (r c0 : N) (h nn : list N).
  Hypothesis Hh : length h = 12%nat /\ words_ok 32 h.
  Hypothesis Hn : length nn = 2%nat /\ words_ok 32 nn.
  Definition cc_state (c : N) : list N := h ++ ctr2 c ++ nn.
  Definition cc_inv (n : nat) (s : chacha) : Prop :=
    cc_r s = r /\ cc_x s = cc_state (c0 + N.of_nat n) /\ c0 + N.of_nat n < 2 ^ 64.
  Definition cc_lim (n : nat) : bool := c0 + N.of_nat n + 1 <? 2 ^ 64.
  Definition cc_blocks (n : nat) : list N := chacha_block (N.to_nat r) (cc_state (c0 + N.of_nat n)).
  Lemma cc_state_st c : st16 (cc_state c).
  Proof.
    unfold cc_state. split.
    - rewrite !app_length. unfold ctr2. rewrite length_le_words. lia.
    - apply words_app; [tauto|]. apply words_app; [apply ctr2_ok|tauto].
  Qed.
  Lemma cc_blocks_len n : length (cc_blocks n) = 64%nat.
  Proof.
    unfold cc_blocks. rewrite <- cc_core_block by apply cc_state_st. unfold cc_core.
    rewrite (length_stores codec32l). rewrite add_words_map2. unfold map2. rewrite map_length, combine_length.
    destruct (cc_state_st (c0 + N.of_nat n)) as [-> _].
    destruct (cc_rounds_eq r _ (cc_state_st (c0 + N.of_nat n))) as [_ [-> _]]. reflexivity.
  Qed.
  Definition cc_set (s : chacha) (u : nat) : chacha := {| cc_r := cc_r s; cc_x := cc_x s; cc_buf := cc_buf s; cc_used := u |}.
  Lemma cc_refill_ok n s : cc_inv n s ->
    if cc_lim n then exists s', cc_refill s = Ok s' /\ cc_inv (S n) s' /\ cc_buf s' = cc_blocks n /\ cc_used s' = 0%nat
    else exists e, cc_refill s = Err e.
  Proof.
    intros (Hr & Hx & Hc). unfold cc_refill. rewrite Hx, Hr.
    pose proof (count_up_ok h nn _ Hc) as CU. replace (length h) with 12%nat in CU by (symmetry; tauto).
    fold (cc_state (c0 + N.of_nat n)) in CU. fold (cc_state (c0 + N.of_nat n + 1)) in CU. rewrite CU.
    unfold cc_lim. destruct (N.ltb_spec (c0 + N.of_nat n + 1) (2 ^ 64)) as [A|A]; cbn [bind]; [|eauto].
    eexists. split; [reflexivity|]. cbn [cc_buf cc_used cc_inv]. split; [|split; [|reflexivity]].
    - unfold cc_inv. cbn [cc_r cc_x]. replace (c0 + N.of_nat (S n)) with (c0 + N.of_nat n + 1) by lia. auto.
    - apply cc_core_block, cc_state_st.
  Qed.
  Definition cc_at := buf_at 64 cc_used cc_buf cc_inv cc_blocks.
  Definition cc_blim := buf_lim 64 cc_lim.
  Lemma cc_next_ok i s : cc_at i s ->
    if cc_blim i then exists s', cc_next s = Ok (s', ks_byte 64 cc_blocks i) /\ cc_at (S i) s'
    else exists e, cc_next s = Err e.
  Proof.
    apply (buf_get_ok 64 cc_used cc_buf cc_set cc_refill cc_inv cc_blocks cc_lim); try discriminate; try reflexivity.
    - exact cc_blocks_len.
    - exact cc_refill_ok.
    - intros n s' u H. exact H.
  Qed.
  Lemma cc_step_ok i s b : cc_at i s ->
    if cc_blim i then exists s', (let* p := cc_next s in Ok (fst p, N.lxor b (snd p))) = Ok (s', N.lxor b (ks_byte 64 cc_blocks i)) /\ cc_at (S i) s'
    else exists e, (let* p := cc_next s in Ok (fst p, N.lxor b (snd p))) = Err e.
  Proof.
    intros H. pose proof (cc_next_ok i s H) as G. destruct (cc_blim i).
    - destruct G as (s' & E & A). rewrite E. exists s'. auto.
    - destruct G as (e & E). rewrite E. now exists e.
  Qed.
  Lemma cc_start s : cc_r s = r -> cc_x s = cc_state c0 -> cc_used s = 64%nat -> c0 < 2 ^ 64 -> cc_at 0 s.
  Proof.
    intros A B C D. apply buf_at_0; [discriminate| |exact C]. unfold cc_inv. rewrite N.add_0_r. auto.
  Qed.
End Stream.

(** ** The state after create *)
Definition cc_c0 (iv : list N) : N :=
  if ((8 <? length iv) && (length iv <=? 12))%nat then le_val (firstn 4 iv) * 2 ^ 32 else 0.
Lemma args_inv mk mi key iv : stream_args_ok mk mi key iv = true ->
  (0 < length key <= mk)%nat /\ (length iv <= mi)%nat.
Proof.
  unfold stream_args_ok. rewrite !andb_true_iff, Nat.ltb_lt, !Nat.leb_le. lia.
Qed.
Lemma firstn_all_ {A} n (l : list A) : length l = n -> firstn n l = l.
Proof. intros <-. apply firstn_all. Qed.
Lemma nth_zero_pad n l i : nth i (zero_pad n l) 0 = nth i l 0.
Proof.
  unfold zero_pad. destruct (Nat.lt_ge_cases i (length l)) as [A|A]; [now rewrite app_nth1|].
  rewrite app_nth2, nth_repeat by lia. now rewrite nth_overflow.
Qed.
Lemma length_zero_pad_max n l : length (zero_pad n l) = Nat.max n (length l).
Proof. unfold zero_pad. rewrite app_length, repeat_length. lia. Qed.
Lemma firstn_zero_pad a b l : (a <= b)%nat -> firstn a (zero_pad b l) = zero_pad a (firstn a l).
Proof.
  intros H. apply nth_ext with (d := 0) (d' := 0).
  - rewrite firstn_length, !length_zero_pad_max, firstn_length. lia.
  - rewrite firstn_length, length_zero_pad_max. intros i Hi. rewrite nth_firstn, !nth_zero_pad, nth_firstn by lia. reflexivity.
Qed.
Lemma skipn_zero_pad a b l : (a <= b)%nat -> skipn a (zero_pad b l) = zero_pad (b - a) (skipn a l).
Proof.
  intros H. apply nth_ext with (d := 0) (d' := 0).
  - rewrite skipn_length, !length_zero_pad_max, skipn_length. lia.
  - rewrite skipn_length, length_zero_pad_max. intros i Hi. rewrite nth_skipn, !nth_zero_pad, nth_skipn. reflexivity.
Qed.
Lemma le_words_S k n l : le_words k (S n) l = le_val (firstn k l) :: le_words k n (skipn k l).
Proof.
  unfold le_words. cbn [seq map]. rewrite Nat.mul_0_r. f_equal. rewrite <- seq_shift, map_map. apply map_ext. intros i.
  unfold slice. rewrite skipn_skipn. f_equal. f_equal. f_equal. lia.
Qed.

Definition cc_h (r : N) (key iv : list N) : list N :=
  if (length iv <=? 12)%nat then chacha_head key
  else firstn 4 (chacha_head key) ++ hchacha (chacha_nr r) (chacha_head key) (firstn 16 (zero_pad 24 iv)).
Definition cc_nn (iv : list N) : list N :=
  le_words 4 2 (if (length iv <=? 8)%nat then zero_pad 8 iv else
                if (length iv <=? 12)%nat then skipn 4 (zero_pad 12 iv) else skipn 16 (zero_pad 24 iv)).
Lemma cc_c0_lt iv : bytes_ok iv -> cc_c0 iv < 2 ^ 64 /\ cc_c0 iv mod 2 ^ 32 = 0.
Proof.
  intros H. unfold cc_c0. destruct (_ && _)%bool; [|split; reflexivity]. split.
  - pose proof (le_val_bound (firstn 4 iv) (bytes_firstn _ _ H)) as B.
    assert (B' : le_val (firstn 4 iv) < 256 ^ 4).
    { eapply N.lt_le_trans; [exact B|]. apply N.pow_le_mono_r; [discriminate|]. rewrite firstn_length. lia. }
    change (2 ^ 64) with (256 ^ 4 * 2 ^ 32). now apply N.mul_lt_mono_pos_r.
  - apply N.mod_mul. discriminate.
Qed.
Lemma list16 {A} (y : list A) : length y = 16%nat -> exists a b c d e f g h i j k l m n o p, y = [a; b; c; d; e; f; g; h; i; j; k; l; m; n; o; p].
Proof.
  intros L. do 16 (destruct y as [|? y]; [discriminate L|]). destruct y; [|discriminate L]. now do 16 eexists.
Qed.
Lemma chacha_nr_eq r : N.to_nat (if r =? 0 then 20 else r) = chacha_nr r.
Proof. unfold chacha_nr. destruct (r =? 0); reflexivity. Qed.
Lemma cc_head_st key iv : bytes_ok key -> bytes_ok iv -> (length key <= 32)%nat ->
  st16 (chacha_head key ++ le_words 4 4 iv).
Proof.
  intros Hk Hi Hl. destruct (chacha_head_ok key Hk Hl) as [L W]. split.
  - rewrite app_length, L, length_le_words. reflexivity.
  - apply words_app; [exact W|]. now apply le_words_ok.
Qed.
Lemma hchacha_ok r key iv : bytes_ok key -> bytes_ok iv -> (length key <= 32)%nat ->
  length (hchacha r (chacha_head key) iv) = 8%nat /\ words_ok 32 (hchacha r (chacha_head key) iv).
Proof.
  intros Hk Hi Hl. destruct (cc_rounds_eq (N.of_nat r) _ (cc_head_st key iv Hk Hi Hl)) as [E [L W]].
  rewrite Nat2N.id in E. rewrite E in W. split; [reflexivity|]. unfold hchacha, cell. cbv zeta.
  repeat apply words_cons; try apply words_nil; now apply words_nth.
Qed.
Lemma cc_h_ok r key iv : bytes_ok key -> bytes_ok iv -> (length key <= 32)%nat ->
  length (cc_h r key iv) = 12%nat /\ words_ok 32 (cc_h r key iv).
Proof.
  intros Hk Hi Hl. unfold cc_h. destruct (_ <=? _)%nat; [now apply chacha_head_ok|].
  destruct (chacha_head_ok key Hk Hl) as [L W].
  destruct (hchacha_ok (chacha_nr r) key (firstn 16 (zero_pad 24 iv)) Hk ltac:(now apply bytes_firstn, bytes_zero_pad) Hl) as [L' W'].
  split; [rewrite app_length, firstn_length, L, L'; reflexivity|].
  apply words_app; [now apply words_firstn|exact W'].
Qed.
Lemma cc_nn_ok iv : bytes_ok iv -> length (cc_nn iv) = 2%nat /\ words_ok 32 (cc_nn iv).
Proof.
  intros H. unfold cc_nn. split; [apply length_le_words|]. apply le_words_ok.
  destruct (_ <=? _)%nat; [now apply bytes_zero_pad|]. destruct (_ <=? _)%nat; now apply bytes_skipn, bytes_zero_pad.
Qed.

Lemma cc_setup_eq r key iv : bytes_ok key -> bytes_ok iv -> (length key <= 32)%nat -> (length iv <= 24)%nat ->
  cc_setup r key iv = (if r =? 0 then 20 else r, cc_state (cc_h r key iv) (cc_nn iv) (cc_c0 iv)).
Proof.
  intros Hk Hi Lk Li. unfold cc_setup. cbv zeta. apply f_equal2; [reflexivity|].
  assert (E : key_consts (N.of_nat (length key)) ++ key_words key = chacha_head key)
    by (rewrite key_consts_eq, key_words_eq by assumption; reflexivity).
  rewrite (app_assoc (key_consts _) (key_words key)), E. unfold cc_state, cc_h, cc_nn, cc_c0, cc_iv. cbv zeta.
  destruct (Nat.leb_spec (length iv) 8) as [A|A].
  { destruct (Nat.ltb_spec 12 (length iv)); [lia|]. destruct (Nat.ltb_spec 8 (length iv)); [lia|].
    destruct (Nat.ltb_spec 16 (length iv)); [lia|]. destruct (Nat.leb_spec (length iv) 12); [|lia].
    cbn [andb]. rewrite load_words by (try assumption; lia). rewrite firstn_all. reflexivity. }
  destruct (Nat.ltb_spec 8 (length iv)); [|lia]. destruct (Nat.leb_spec (length iv) 12) as [B|B].
  { destruct (Nat.ltb_spec 12 (length iv)); [lia|]. destruct (Nat.ltb_spec 16 (length iv)); [lia|]. cbn [andb].
    rewrite load_words by (try assumption; lia). rewrite firstn_all. cbn [Nat.sub Nat.mul Nat.add].
    rewrite le_words_S, firstn_zero_pad by lia. apply f_equal.
    rewrite ctr2_eq.
    - rewrite N.mod_mul, N.div_mul by discriminate. rewrite zero_pad_full by (rewrite firstn_length; lia). reflexivity.
    - pose proof (cc_c0_lt iv Hi) as [HC _]. unfold cc_c0 in HC. rewrite (proj2 (Nat.ltb_lt _ _)), (proj2 (Nat.leb_le _ _)) in HC by lia.
      exact HC. }
  destruct (Nat.ltb_spec 12 (length iv)); [|lia]. cbn [andb].
  assert (E2 : repeat 0 0 ++ load32l_array iv (repeat 0 (4 - 0)) (if (16 <? length iv)%nat then 16%nat else length iv)
    = le_words 4 4 (firstn 16 (zero_pad 24 iv))).
  { rewrite firstn_zero_pad by lia. cbn [repeat app].
    destruct (Nat.ltb_spec 16 (length iv)).
    - rewrite load_words by (try assumption; lia). reflexivity.
    - rewrite load_words by (try assumption; lia). rewrite firstn_all, firstn_all2 by lia. reflexivity. }
  rewrite E2.
  assert (E3 : (if (16 <? length iv)%nat then load32l_array (skipn 16 iv) [0; 0] (length iv - 16) else [0; 0])
    = le_words 4 2 (skipn 16 (zero_pad 24 iv))).
  { rewrite skipn_zero_pad by lia. destruct (Nat.ltb_spec 16 (length iv)).
    - change [0; 0] with (repeat 0 2). rewrite load_words by (try (now apply bytes_skipn); rewrite ?skipn_length; lia).
      rewrite firstn_all2 by (rewrite skipn_length; lia). reflexivity.
    - rewrite skipn_all2 by lia. reflexivity. }
  rewrite E3.
  destruct (cc_rounds_eq (if r =? 0 then 20 else r) _ (cc_head_st key (firstn 16 (zero_pad 24 iv)) Hk ltac:(now apply bytes_firstn, bytes_zero_pad) Lk)) as [-> [L _]].
  rewrite chacha_nr_eq in *.
  assert (E4 : key_consts (N.of_nat (length key)) = firstn 4 (chacha_head key)).
  { rewrite <- E. cbn [key_consts app]. reflexivity. }
  rewrite E4, <- !app_assoc. apply f_equal. unfold hchacha. cbv zeta.
  set (y := chacha_rounds _ _) in *.
  clearbody y. apply list16 in L. destruct L as (a & b & c & d & e & f & g & h & i & j & k & l & m & n & o & p & ->).
  reflexivity.
Qed.

(** the specified stream in terms of the counter *)
Lemma cc_ks_eq r key iv n : bytes_ok iv -> (length iv <= 24)%nat -> (cc_c0 iv + n < 2 ^ 64) ->
  ((8 < length iv <= 12)%nat -> n < 2 ^ 32) ->
  chacha_ks r key iv n = chacha_block (chacha_nr r) (cc_state (cc_h r key iv) (cc_nn iv) (cc_c0 iv + n)).
Proof.
  intros Hi Li Hn Hm. unfold chacha_ks, cc_state, cc_h, cc_nn. cbv zeta. pose proof (cc_c0_lt iv Hi) as [C0 _]. unfold cc_c0 in *.
  destruct (Nat.leb_spec (length iv) 8) as [A|A].
  { destruct (Nat.ltb_spec 8 (length iv)); [lia|]. destruct (Nat.leb_spec (length iv) 12); [|lia]. cbn [andb].
    rewrite N.add_0_l. reflexivity. }
  destruct (Nat.ltb_spec 8 (length iv)); [|lia]. destruct (Nat.leb_spec (length iv) 12) as [B|B]; cbn [andb] in *.
  { unfold chacha_ks12. apply f_equal, f_equal. rewrite ctr2_eq by exact Hn.
    rewrite le_words_S, firstn_zero_pad by lia. rewrite zero_pad_full by (rewrite firstn_length; lia). cbn [app].
    rewrite N.add_comm, N.mod_add by discriminate. rewrite (N.mod_small n) by auto.
    rewrite N.div_add by discriminate. rewrite (N.div_small n) by auto. reflexivity. }
  rewrite N.add_0_l. unfold chacha_ks24, chacha_ks8. reflexivity.
Qed.

(** ** The theorems *)
Lemma chacha_create_inv r key iv s : bytes_ok key -> bytes_ok iv -> chacha_create r key iv = Ok s ->
  (length key <= 32)%nat /\ (length iv <= 24)%nat /\
  cc_at (if r =? 0 then 20 else r) (cc_c0 iv) (cc_h r key iv) (cc_nn iv) 0 s.
Proof.
  intros Hk Hi H. unfold chacha_create in H.
  destruct (stream_args_ok chacha_maxkey chacha_maxiv key iv) eqn:Ea; [|discriminate]. cbn [assert_] in H.
  apply args_inv in Ea. unfold chacha_maxkey, chacha_maxiv in Ea. destruct Ea as [Lk Li].
  rewrite cc_setup_eq in H by (auto; lia). injection H as <-. split; [lia|]. split; [exact Li|].
  apply cc_start; try reflexivity. now apply cc_c0_lt.
Qed.
Lemma chacha_recreate_inv s0 r key iv s : bytes_ok key -> bytes_ok iv -> chacha_recreate s0 r key iv = Ok s ->
  (length key <= 32)%nat /\ (length iv <= 24)%nat /\
  cc_at (if r =? 0 then 20 else r) (cc_c0 iv) (cc_h r key iv) (cc_nn iv) 0 s.
Proof.
  intros Hk Hi H. unfold chacha_recreate in H.
  destruct (stream_args_ok chacha_maxkey chacha_maxiv key iv) eqn:Ea; [|discriminate]. cbn [assert_] in H.
  apply args_inv in Ea. unfold chacha_maxkey, chacha_maxiv in Ea. destruct Ea as [Lk Li].
  rewrite cc_setup_eq in H by (auto; lia). injection H as <-. split; [lia|]. split; [exact Li|].
  apply cc_start; try reflexivity. now apply cc_c0_lt.
Qed.
Definition chacha_started (r : N) (key iv : list N) (s : chacha) : Prop :=
  chacha_create r key iv = Ok s \/ exists s0, chacha_recreate s0 r key iv = Ok s.
Lemma chacha_started_inv r key iv s : bytes_ok key -> bytes_ok iv -> chacha_started r key iv s ->
  (length key <= 32)%nat /\ (length iv <= 24)%nat /\
  cc_at (if r =? 0 then 20 else r) (cc_c0 iv) (cc_h r key iv) (cc_nn iv) 0 s.
Proof.
  intros Hk Hi [H|[s0 H]]; [now apply chacha_create_inv|now apply chacha_recreate_inv with (s0 := s0)].
Qed.
Lemma cc_at_bound r c0 h nn i s j : cc_at r c0 h nn i s -> (j < i)%nat -> c0 + N.of_nat (j / 64) < 2 ^ 64.
Proof.
  intros [(M & U & I)|(M & U & I & B)] Hj; destruct I as (_ & _ & I).
  - assert (j / 64 <= i / 64)%nat by (apply Nat.div_le_mono; lia). lia.
  - assert (j / 64 <= i / 64)%nat by (apply Nat.div_le_mono; lia). lia.
Qed.
Lemma map_ext_seq {A} (f g : nat -> A) i n : (forall j, (i <= j < i + n)%nat -> f j = g j) -> map f (seq i n) = map g (seq i n).
Proof. intros H. apply map_ext_in. intros j Hj. apply in_seq in Hj. now apply H. Qed.

(** one 12 byte nonce is good for 2^32 blocks *)
Definition chacha_within (iv : list N) (len : nat) : Prop := (8 < length iv <= 12)%nat -> N.of_nat len <= 2 ^ 38.
Lemma within_block iv len j : chacha_within iv len -> (j < len)%nat -> (8 < length iv <= 12)%nat -> N.of_nat (j / 64) < 2 ^ 32.
Proof.
  intros H Hj Hl. specialize (H Hl). rewrite Nat2N.inj_div. apply N.div_lt_upper_bound; [discriminate|].
  change (N.of_nat 64 * 2 ^ 32) with (2 ^ 38). lia.
Qed.
Definition chacha_stream (r : N) (key iv : list N) : nat -> N := ks_byte 64 (fun n => chacha_ks r key iv (N.of_nat n)).
Lemma chacha_session r key iv s0 inp s out : bytes_ok key -> bytes_ok iv -> chacha_started r key iv s0 ->
  session chacha_crypt s0 inp s out -> chacha_within iv (length inp) ->
  out = xor_ks (chacha_stream r key iv) 0 inp.
Proof.
  intros Hk Hi H0 HS Hw. destruct (chacha_started_inv _ _ _ _ Hk Hi H0) as (Lk & Li & A).
  pose proof (cc_h_ok r key iv Hk Hi Lk) as Hh. pose proof (cc_nn_ok iv Hi) as Hnn.
  destruct (session_lim _ _ _ _ (cc_step_ok _ (cc_c0 iv) _ _ Hh Hnn) _ _ _ _ _ A HS) as [-> B].
  apply xor_ks_ext. intros j Hj. unfold chacha_stream, ks_byte. f_equal. unfold cc_blocks. rewrite chacha_nr_eq. symmetry.
  apply cc_ks_eq; try assumption.
  - apply (cc_at_bound _ _ _ _ _ _ _ B). lia.
  - apply within_block with (len := length inp); [assumption|lia].
Qed.
Lemma chacha_gsession r key iv s0 s out : bytes_ok key -> bytes_ok iv -> chacha_started r key iv s0 ->
  gsession chacha_prng s0 s out -> chacha_within iv (length out) ->
  out = map (chacha_stream r key iv) (seq 0 (length out)).
Proof.
  intros Hk Hi H0 HS Hw. destruct (chacha_started_inv _ _ _ _ Hk Hi H0) as (Lk & Li & A).
  pose proof (cc_h_ok r key iv Hk Hi Lk) as Hh. pose proof (cc_nn_ok iv Hi) as Hnn.
  destruct (gsession_lim _ _ _ _ (cc_next_ok _ (cc_c0 iv) _ _ Hh Hnn) _ _ _ _ A HS) as [E B].
  rewrite E at 1. apply map_ext_seq. intros j Hj. unfold chacha_stream, ks_byte. f_equal. unfold cc_blocks. rewrite chacha_nr_eq. symmetry.
  apply cc_ks_eq; try assumption.
  - apply (cc_at_bound _ _ _ _ _ _ _ B). lia.
  - apply within_block with (len := length out); [assumption|lia].
Qed.
(** decryption is the same function; no bound on the length here *)
Lemma chacha_roundtrip r key iv s0 s0' inp s out s' back : bytes_ok key -> bytes_ok iv ->
  chacha_started r key iv s0 -> chacha_started r key iv s0' ->
  session chacha_crypt s0 inp s out -> session chacha_crypt s0' out s' back -> back = inp.
Proof.
  intros Hk Hi H0 H0' HS HS'. destruct (chacha_started_inv _ _ _ _ Hk Hi H0) as (Lk & Li & A).
  destruct (chacha_started_inv _ _ _ _ Hk Hi H0') as (_ & _ & A').
  pose proof (cc_h_ok r key iv Hk Hi Lk) as Hh. pose proof (cc_nn_ok iv Hi) as Hnn.
  destruct (session_lim _ _ _ _ (cc_step_ok _ (cc_c0 iv) _ _ Hh Hnn) _ _ _ _ _ A HS) as [-> _].
  destruct (session_lim _ _ _ _ (cc_step_ok _ (cc_c0 iv) _ _ Hh Hnn) _ _ _ _ _ A' HS') as [-> _].
  apply xor_ks_invol.
Qed.
(** the counter runs out after 2^64 - 1 blocks; with a 9..12 byte nonce its upper half starts
    with the nonce *)
Lemma cc_lim_true c0 i n j : N.of_nat (i + n) <= 64 * (2 ^ 64 - 1 - c0) -> (j < n)%nat -> cc_blim c0 (i + j) = true.
Proof.
  intros H Hj. unfold cc_blim, buf_lim, cc_lim. apply orb_true_iff. right. apply N.ltb_lt. rewrite Nat2N.inj_div.
  assert (N.of_nat (i + j) / N.of_nat 64 < 2 ^ 64 - 1 - c0); [|lia].
  apply N.div_lt_upper_bound; [discriminate|]. change (N.of_nat 64) with 64. lia.
Qed.
Lemma chacha_safe r key iv s0 inp s out n : bytes_ok key -> bytes_ok iv -> chacha_started r key iv s0 ->
  session chacha_crypt s0 inp s out -> N.of_nat (length inp + n) <= 64 * (2 ^ 64 - 1 - cc_c0 iv) ->
  call_safe_upto chacha_crypt n s /\ gcall_safe_upto chacha_prng n s.
Proof.
  intros Hk Hi H0 HS Hn. destruct (chacha_started_inv _ _ _ _ Hk Hi H0) as (Lk & Li & A).
  pose proof (cc_h_ok r key iv Hk Hi Lk) as Hh. pose proof (cc_nn_ok iv Hi) as Hnn.
  destruct (session_lim _ _ _ _ (cc_step_ok _ (cc_c0 iv) _ _ Hh Hnn) _ _ _ _ _ A HS) as [_ B].
  split.
  - apply (safe_lim _ _ _ _ (cc_step_ok _ (cc_c0 iv) _ _ Hh Hnn) _ _ _ B). intros j Hj. now apply cc_lim_true with (n := n).
  - apply (gsafe_lim _ _ _ _ (cc_next_ok _ (cc_c0 iv) _ _ Hh Hnn) _ _ _ B). intros j Hj. now apply cc_lim_true with (n := n).
Qed.
Lemma chacha_gsafe r key iv s0 s out n : bytes_ok key -> bytes_ok iv -> chacha_started r key iv s0 ->
  gsession chacha_prng s0 s out -> N.of_nat (length out + n) <= 64 * (2 ^ 64 - 1 - cc_c0 iv) ->
  call_safe_upto chacha_crypt n s /\ gcall_safe_upto chacha_prng n s.
Proof.
  intros Hk Hi H0 HS Hn. destruct (chacha_started_inv _ _ _ _ Hk Hi H0) as (Lk & Li & A).
  pose proof (cc_h_ok r key iv Hk Hi Lk) as Hh. pose proof (cc_nn_ok iv Hi) as Hnn.
  destruct (gsession_lim _ _ _ _ (cc_next_ok _ (cc_c0 iv) _ _ Hh Hnn) _ _ _ _ A HS) as [_ B].
  split.
  - apply (safe_lim _ _ _ _ (cc_step_ok _ (cc_c0 iv) _ _ Hh Hnn) _ _ _ B). intros j Hj. now apply cc_lim_true with (n := n).
  - apply (gsafe_lim _ _ _ _ (cc_next_ok _ (cc_c0 iv) _ _ Hh Hnn) _ _ _ B). intros j Hj. now apply cc_lim_true with (n := n).
Qed.
Lemma chacha_create_total r key iv : (0 < length key <= 32)%nat -> (length iv <= 24)%nat -> exists s, chacha_create r key iv = Ok s.
Proof.
  intros Hk Hi. unfold chacha_create, stream_args_ok, chacha_maxkey, chacha_maxiv.
  rewrite (proj2 (Nat.ltb_lt _ _)), !(proj2 (Nat.leb_le _ _)) by lia. cbn [andb assert_].
  destruct (cc_setup r key iv). eauto.
Qed.
Lemma cc_c0_max iv : bytes_ok iv -> cc_c0 iv <= 2 ^ 64 - 2 ^ 32.
Proof.
  intros H. pose proof (cc_c0_lt iv H) as [A B]. pose proof (N.div_mod (cc_c0 iv) (2 ^ 32) ltac:(discriminate)) as E.
  rewrite B in E. change (2 ^ 64) with 18446744073709551616 in *. change (2 ^ 32) with 4294967296 in *. lia.
Qed.

(** RFC 8439 by the letter: 20 rounds are ten double rounds *)
Lemma chacha_rounds_20 x : chacha_rounds 20 x = Nat.iter 10 (fun y => chacha_diagonal_round (chacha_column_round y)) x.
Proof. reflexivity. Qed.
(** after 2^32 blocks of a 12 byte nonce the stream is that of the next nonce *)
Definition next_nonce (iv : list N) : list N := le_bytes 4 (le_val (firstn 4 iv) + 1) ++ skipn 4 iv.
Lemma chacha_overlap r key iv n : bytes_ok key -> bytes_ok iv -> length iv = 12%nat ->
  le_val (firstn 4 iv) + 1 < 2 ^ 32 -> n < 2 ^ 32 ->
  cc_blocks (if r =? 0 then 20 else r) (cc_c0 iv) (cc_h r key iv) (cc_nn iv) (N.to_nat (2 ^ 32 + n)) =
  chacha_ks r key (next_nonce iv) n.
Proof.
  intros Hk Hi Hl Hv Hn.
  assert (Ll : length (le_bytes 4 (le_val (firstn 4 iv) + 1)) = 4%nat) by apply length_le_bytes.
  assert (L2 : length (next_nonce iv) = 12%nat) by (unfold next_nonce; rewrite app_length, Ll, skipn_length, Hl; reflexivity).
  assert (B2 : bytes_ok (next_nonce iv)) by (apply bytes_app; split; [apply bytes_le_bytes|now apply bytes_skipn]).
  assert (C : cc_c0 (next_nonce iv) = cc_c0 iv + 2 ^ 32).
  { unfold cc_c0. rewrite L2, Hl. cbn [Nat.ltb Nat.leb andb]. unfold next_nonce. rewrite firstn_app, Ll, Nat.sub_diag.
    rewrite firstn_O, app_nil_r, firstn_all2 by (rewrite Ll; lia). rewrite le_val_bytes. rewrite N.mod_small by exact Hv. lia. }
  assert (C' : cc_c0 (next_nonce iv) <= 2 ^ 64 - 2 ^ 32) by now apply cc_c0_max.
  assert (Hc : cc_c0 (next_nonce iv) + n < 2 ^ 64)
    by (change (2 ^ 64) with 18446744073709551616 in *; change (2 ^ 32) with 4294967296 in *; lia).
  rewrite (cc_ks_eq r key (next_nonce iv) n B2 ltac:(rewrite L2; lia) Hc (fun _ => Hn)).
  unfold cc_blocks. rewrite chacha_nr_eq, N2Nat.id. f_equal. rewrite C, N.add_assoc. f_equal.
  - unfold cc_h. now rewrite L2, Hl.
  - unfold cc_nn. rewrite L2, Hl. cbn [Nat.leb]. rewrite !zero_pad_full by lia.
    unfold next_nonce. rewrite skipn_app, Ll, Nat.sub_diag. rewrite (skipn_all2 (le_bytes 4 _)) by (rewrite Ll; lia). reflexivity.
Qed.

(** the same at the level of a session: bytes from 2^38 on *)
Lemma chacha_overlap_bytes r key iv s0 inp s out k j : bytes_ok key -> bytes_ok iv -> length iv = 12%nat ->
  le_val (firstn 4 iv) + 1 < 2 ^ 32 -> chacha_started r key iv s0 -> session chacha_crypt s0 inp s out ->
  N.of_nat k = 2 ^ 38 -> (j < k)%nat -> (k + j < length inp)%nat ->
  nth (k + j) out 0 = N.lxor (nth (k + j) inp 0) (chacha_stream r key (next_nonce iv) j).
Proof.
  intros Hk Hi Hl Hv H0 HS Ek Hj Hlen. destruct (chacha_started_inv _ _ _ _ Hk Hi H0) as (Lk & Li & A).
  pose proof (cc_h_ok r key iv Hk Hi Lk) as Hh. pose proof (cc_nn_ok iv Hi) as Hnn.
  destruct (session_lim _ _ _ _ (cc_step_ok _ (cc_c0 iv) _ _ Hh Hnn) _ _ _ _ _ A HS) as [-> _].
  rewrite nth_xor_ks by exact Hlen. f_equal. cbn [Nat.add]. unfold chacha_stream, ks_byte.
  assert (D : exists q, k = (q * 64)%nat /\ N.of_nat q = 2 ^ 32).
  { exists (k / 64)%nat. assert (E : N.of_nat (k / 64) = 2 ^ 32) by (rewrite Nat2N.inj_div, Ek; reflexivity).
    split; [|exact E]. apply Nat2N.inj. rewrite Nat2N.inj_mul, E, Ek. reflexivity. }
  destruct D as (q & -> & Eq). rewrite Nat.div_add_l by discriminate.
  rewrite (Nat.add_comm (q * 64) j), Nat.mod_add by discriminate.
  replace (q + j / 64)%nat with (N.to_nat (2 ^ 32 + N.of_nat (j / 64))) by (rewrite <- Eq, <- Nat2N.inj_add; apply Nat2N.id).
  f_equal. apply chacha_overlap; try assumption.
  rewrite Nat2N.inj_div. apply N.div_lt_upper_bound; [discriminate|]. rewrite <- Eq. lia.
Qed.
(** the end of the stream: the next byte stops the program (assert) *)
Lemma chacha_exhausted r key iv s0 inp s out : bytes_ok key -> bytes_ok iv -> chacha_started r key iv s0 ->
  session chacha_crypt s0 inp s out -> N.of_nat (length inp) = 64 * (2 ^ 64 - 1 - cc_c0 iv) ->
  forall m src dst len, buffers_ok src dst (S len) -> exists e, chacha_crypt s m src dst (S len) = Err e.
Proof.
  intros Hk Hi H0 HS Hn m src dst len Hb. destruct (chacha_started_inv _ _ _ _ Hk Hi H0) as (Lk & Li & A).
  pose proof (cc_h_ok r key iv Hk Hi Lk) as Hh. pose proof (cc_nn_ok iv Hi) as Hnn.
  destruct (session_lim _ _ _ _ (cc_step_ok _ (cc_c0 iv) _ _ Hh Hnn) _ _ _ _ _ A HS) as [_ B].
  destruct (chacha_crypt s m src dst (S len)) as [[s' m']|e] eqn:E; [exfalso|eauto].
  pose proof (crypt_within _ _ _ _ (cc_step_ok _ (cc_c0 iv) _ _ Hh Hnn) _ _ _ _ _ _ _ _ B Hb E 0%nat ltac:(lia)) as C.
  rewrite Nat.add_0_r, Nat.add_0_l in C. unfold cc_blim, buf_lim, cc_lim in C.
  pose proof (proj1 (cc_c0_lt iv Hi)) as Hc.
  assert (Q : N.of_nat (length inp / 64) = 2 ^ 64 - 1 - cc_c0 iv).
  { rewrite Nat2N.inj_div, Hn. change (N.of_nat 64) with 64. rewrite N.mul_comm. apply N.div_mul. discriminate. }
  assert (M : (length inp mod 64 = 0)%nat).
  { apply Nat2N.inj. rewrite Nat2N.inj_mod, Hn. change (N.of_nat 64) with 64. rewrite N.mul_comm. apply N.mod_mul. discriminate. }
  rewrite M, Q in C. cbn [Nat.eqb negb orb] in C. apply N.ltb_lt in C. revert C Hc.
  change (2 ^ 64) with 18446744073709551616. lia.
Qed.
(** how many bytes every nonce is good for *)
Definition chacha_room (iv : list N) : N := if ((8 <? length iv) && (length iv <=? 12))%nat then 2 ^ 38 - 64 else 2 ^ 70 - 64.
Lemma chacha_room_ok iv : bytes_ok iv -> chacha_room iv <= 64 * (2 ^ 64 - 1 - cc_c0 iv).
Proof.
  intros H. pose proof (cc_c0_max iv H) as M. unfold chacha_room. unfold cc_c0 in *.
  destruct ((8 <? length iv) && (length iv <=? 12))%nat.
  - generalize dependent (le_val (firstn 4 iv) * 2 ^ 32). intros x. change (2 ^ 38) with (64 * 2 ^ 32).
    change (2 ^ 64) with 18446744073709551616. change (2 ^ 32) with 4294967296. lia.
  - reflexivity || discriminate.
Qed.
Lemma chacha_safe_room r key iv s0 inp s out n : bytes_ok key -> bytes_ok iv -> chacha_started r key iv s0 ->
  session chacha_crypt s0 inp s out -> N.of_nat (length inp + n) <= chacha_room iv ->
  call_safe_upto chacha_crypt n s /\ gcall_safe_upto chacha_prng n s.
Proof. intros Hk Hi H0 HS H. apply (chacha_safe r key iv s0 inp s out n Hk Hi H0 HS). pose proof (chacha_room_ok iv Hi). lia. Qed.
Lemma chacha_gsafe_room r key iv s0 s out n : bytes_ok key -> bytes_ok iv -> chacha_started r key iv s0 ->
  gsession chacha_prng s0 s out -> N.of_nat (length out + n) <= chacha_room iv ->
  call_safe_upto chacha_crypt n s /\ gcall_safe_upto chacha_prng n s.
Proof. intros Hk Hi H0 HS H. apply (chacha_gsafe r key iv s0 s out n Hk Hi H0 HS). pose proof (chacha_room_ok iv Hi). lia. Qed.
(** nonce FF FF FF FF ..: the last of the 2^32 blocks of RFC 8439 is not available *)
Lemma chacha_last_block r key n8 s0 inp s out : bytes_ok key -> bytes_ok n8 -> length n8 = 8%nat ->
  chacha_started r key ([255; 255; 255; 255] ++ n8) s0 ->
  session chacha_crypt s0 inp s out -> N.of_nat (length inp) = 2 ^ 38 - 64 ->
  forall m src dst len, buffers_ok src dst (S len) -> exists e, chacha_crypt s m src dst (S len) = Err e.
Proof.
  intros Hk Hn L H0 HS Hl. apply (chacha_exhausted r key ([255; 255; 255; 255] ++ n8) s0 inp s out Hk); try assumption.
  - apply bytes_app. split; [repeat constructor|exact Hn].
  - rewrite Hl. unfold cc_c0. rewrite app_length, L. reflexivity.
Qed.
(** RFC 8439, 2.3 and 2.4 *)
Lemma chacha_ks_rfc key nonce n : length key = 32%nat -> length nonce = 12%nat ->
  chacha_ks 0 key nonce n =
  chacha_block 20 ([0x61707865; 0x3320646e; 0x79622d32; 0x6b206574] ++ le_words 4 8 key ++ [n] ++ le_words 4 3 nonce).
Proof.
  intros Hk Hn. unfold chacha_ks. rewrite Hn. cbn [Nat.leb]. unfold chacha_ks12, chacha_head.
  rewrite zero_pad_full by lia. rewrite repeated_full by assumption. rewrite Hk. rewrite <- !app_assoc. reflexivity.
Qed.
