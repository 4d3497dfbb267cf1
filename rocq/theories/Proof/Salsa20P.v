(** Salsa20: the model computes the specified key stream. *)
From Coq Require Import String NArith Arith List Bool Lia.
From Verif Require Import Lib.Word Lib.Res Lib.Bytes Lib.WordSpec Model.LoadStore Proof.LoadStoreP Model.Mem Model.Modes Model.Chacha Model.Salsa20
  Spec.Words Spec.Modes Spec.Chacha Spec.Salsa20 Lib.MemLemmas Lib.KeyStreamB Proof.ChachaP.
Import ListNotations.
Local Open Scope N_scope.

Lemma s20_qr_quarter a b c d : inw 32 a -> inw 32 b -> inw 32 c -> inw 32 d -> s20_qr a b c d = salsa_quarter a b c d.
Proof.
  intros. unfold s20_qr, salsa_quarter. cbv zeta. rewrite <- !plus_w_wadd.
  rewrite <- !rol_rotl by (try wb; try discriminate). reflexivity.
Qed.
Lemma s20_qr_inw a b c d : inw 32 a -> inw 32 b -> inw 32 c -> inw 32 d -> q4 (s20_qr a b c d).
Proof. intros. unfold s20_qr, q4. cbv zeta. repeat split; wb. Qed.

Lemma s20_columns_round x : st16 x -> fold_left (qr_at s20_qr) s20_columns x = salsa_column_round x.
Proof.
  intros H. apply st16_16 in H. destruct H as (a & b & c & d & e & f & g & h & i & j & k & l & m & n & o & p & -> & ? & ? & ? & ?).
  unfold s20_columns, fold_left, qr_at. cbn [nth].
  rewrite ?s20_qr_quarter by tauto.
  unfold salsa_column_round, salsa_row_round, transpose, matrix, cell.
  cbn [seq map nth Nat.div Nat.modulo Nat.divmod Nat.mul Nat.add fst snd Nat.sub].
  destruct (salsa_quarter a e i m) as [[[? ?] ?] ?]; cbn [upd nth part]; rewrite ?s20_qr_quarter by tauto.
  destruct (salsa_quarter f j n b) as [[[? ?] ?] ?]; cbn [upd nth part]; rewrite ?s20_qr_quarter by tauto.
  destruct (salsa_quarter k o c g) as [[[? ?] ?] ?]; cbn [upd nth part]; rewrite ?s20_qr_quarter by tauto.
  destruct (salsa_quarter p d h l) as [[[? ?] ?] ?]; cbn [upd nth part]. reflexivity.
Qed.
Lemma s20_rows_round x : st16 x -> fold_left (qr_at s20_qr) s20_rows x = salsa_row_round x.
Proof.
  intros H. apply st16_16 in H. destruct H as (a & b & c & d & e & f & g & h & i & j & k & l & m & n & o & p & -> & ? & ? & ? & ?).
  unfold s20_rows, fold_left, qr_at. cbn [nth].
  rewrite ?s20_qr_quarter by tauto.
  unfold salsa_row_round, matrix, cell.
  cbn [seq map nth Nat.div Nat.modulo Nat.divmod Nat.mul Nat.add fst snd Nat.sub].
  destruct (salsa_quarter a b c d) as [[[? ?] ?] ?]; cbn [upd nth part]; rewrite ?s20_qr_quarter by tauto.
  destruct (salsa_quarter f g h e) as [[[? ?] ?] ?]; cbn [upd nth part]; rewrite ?s20_qr_quarter by tauto.
  destruct (salsa_quarter k l i j) as [[[? ?] ?] ?]; cbn [upd nth part]; rewrite ?s20_qr_quarter by tauto.
  destruct (salsa_quarter p m n o) as [[[? ?] ?] ?]; cbn [upd nth part]. reflexivity.
Qed.
Lemma s20_rounds_eq r x : st16 x -> s20_rounds r x = salsa_rounds (N.to_nat r) x /\ st16 (s20_rounds r x).
Proof.
  intros H. unfold s20_rounds. induction (N.to_nat r) as [|n [IH S]]; [auto|]. rewrite pfor_S. cbn [salsa_rounds].
  rewrite <- IH. cbn [Nat.add]. destruct (Nat.even n).
  - split; [now apply s20_columns_round|]. apply fold_qr_st; [apply s20_qr_inw|exact S].
  - split; [now apply s20_rows_round|]. apply fold_qr_st; [apply s20_qr_inw|exact S].
Qed.
Lemma s20_core_hash r x : st16 x -> s20_core r x = salsa_hash (N.to_nat r) x.
Proof.
  intros H. unfold s20_core, salsa_hash. rewrite stores32l_le, add_words_map2. now destruct (s20_rounds_eq r x H) as [-> _].
Qed.

(** ** The state *)
Tactic Notation "explode" hyp(L) hyp(l) integer(n) := do n (destruct l as [|? l]; [discriminate L|]); destruct l; [|discriminate L].
Lemma salsa_state_words t k i : length t = 16%nat -> length k = 32%nat -> length i = 16%nat ->
  salsa_state t k i = s20_words (le_words 4 4 t) (le_words 4 8 k) (le_words 4 4 i).
Proof. intros Lt Lk Li. explode Lt t 16. explode Lk k 32. explode Li i 16. reflexivity. Qed.
Definition s20_pre (t k nonce : list N) : list N :=
  [le_val (firstn 4 t)] ++ le_words 4 4 k ++ [le_val (slice 4 4 t)] ++ le_words 4 2 nonce.
Definition s20_post (t k : list N) : list N := [le_val (slice 8 4 t)] ++ le_words 4 4 (skipn 16 k) ++ [le_val (skipn 12 t)].
Definition s20_state (t k nonce : list N) (c : N) : list N := salsa_state t k (nonce ++ le_bytes 8 c).
Lemma s20_state_ctr t k nonce c : length t = 16%nat -> length k = 32%nat -> length nonce = 8%nat ->
  s20_state t k nonce c = s20_pre t k nonce ++ ctr2 c ++ s20_post t k.
Proof.
  intros Lt Lk Li. unfold s20_state, ctr2. pose proof (length_le_bytes 8 c) as L8. set (b := le_bytes 8 c) in *. clearbody b.
  explode Lt t 16. explode Lk k 32. explode Li nonce 8. explode L8 b 8. reflexivity.
Qed.
Lemma salsa_state_st t k i : bytes_ok t -> bytes_ok k -> bytes_ok i -> st16 (salsa_state t k i).
Proof.
  intros Ht Hk Hi. split; [apply length_le_words|]. apply le_words_ok. rewrite !bytes_app.
  repeat split; try assumption; try (now apply bytes_firstn); try (now apply bytes_slice); now apply bytes_skipn.
Qed.

Section Stream.
  Variables (r : N) (t k nonce : list N).
  Hypothesis Ht : length t = 16%nat /\ bytes_ok t.
  Hypothesis Hk : length k = 32%nat /\ bytes_ok k.
  Hypothesis Hn : length nonce = 8%nat /\ bytes_ok nonce.
  Definition s20_inv (n : nat) (s : salsa20) : Prop :=
    s20_r s = r /\ s20_x s = s20_state t k nonce (N.of_nat n) /\ N.of_nat n < 2 ^ 64.
  Definition s20_blocks (n : nat) : list N := salsa_ks8 (N.to_nat r) t k nonce (N.of_nat n).
  Lemma s20_state_st c : st16 (s20_state t k nonce c).
  Proof.
    apply salsa_state_st; try tauto. apply bytes_app. split; [tauto|apply bytes_le_bytes].
  Qed.
  Lemma s20_blocks_len n : length (s20_blocks n) = 64%nat.
  Proof.
    unfold s20_blocks, salsa_ks8. fold (s20_state t k nonce (N.of_nat n)). rewrite <- s20_core_hash by apply s20_state_st. unfold s20_core.
    rewrite (length_stores codec32l). rewrite add_words_map2. unfold map2. rewrite map_length, combine_length.
    destruct (s20_state_st (N.of_nat n)) as [-> _].
    destruct (s20_rounds_eq r _ (s20_state_st (N.of_nat n))) as [_ [-> _]]. reflexivity.
  Qed.
  Definition s20_set (s : salsa20) (u : nat) : salsa20 := {| s20_r := s20_r s; s20_x := s20_x s; s20_buf := s20_buf s; s20_used := u |}.
  Lemma s20_refill_ok n s : s20_inv n s ->
    if cc_lim 0 n then exists s', s20_refill s = Ok s' /\ s20_inv (S n) s' /\ s20_buf s' = s20_blocks n /\ s20_used s' = 0%nat
    else exists e, s20_refill s = Err e.
  Proof.
    intros (Hr & Hx & Hc). unfold s20_refill. rewrite Hx, Hr.
    pose proof (count_up_ok (s20_pre t k nonce) (s20_post t k) _ Hc) as CU. change (length (s20_pre t k nonce)) with 8%nat in CU.
    rewrite <- !s20_state_ctr in CU by tauto. rewrite CU.
    unfold cc_lim. rewrite N.add_0_l. destruct (N.ltb_spec (N.of_nat n + 1) (2 ^ 64)) as [A|A]; cbn [bind]; [|eauto].
    eexists. split; [reflexivity|]. cbn [s20_buf s20_used]. split; [|split; [|reflexivity]].
    - unfold s20_inv. cbn [s20_r s20_x]. replace (N.of_nat (S n)) with (N.of_nat n + 1) by lia. auto.
    - apply s20_core_hash, s20_state_st.
  Qed.
  Definition s20_at := buf_at 64 s20_used s20_buf s20_inv s20_blocks.
  Lemma s20_next_ok i s : s20_at i s ->
    if cc_blim 0 i then exists s', s20_next s = Ok (s', ks_byte 64 s20_blocks i) /\ s20_at (S i) s'
    else exists e, s20_next s = Err e.
  Proof.
    apply (buf_get_ok 64 s20_used s20_buf s20_set s20_refill s20_inv s20_blocks (cc_lim 0)); try discriminate; try reflexivity.
    - exact s20_blocks_len.
    - exact s20_refill_ok.
    - intros n s' u H. exact H.
  Qed.
  Lemma s20_step_ok i s b : s20_at i s ->
    if cc_blim 0 i then exists s', (let* p := s20_next s in Ok (fst p, N.lxor b (snd p))) = Ok (s', N.lxor b (ks_byte 64 s20_blocks i)) /\ s20_at (S i) s'
    else exists e, (let* p := s20_next s in Ok (fst p, N.lxor b (snd p))) = Err e.
  Proof.
    intros H. pose proof (s20_next_ok i s H) as G. destruct (cc_blim 0 i).
    - destruct G as (s' & E & A). rewrite E. exists s'. auto.
    - destruct G as (e & E). rewrite E. now exists e.
  Qed.
  Lemma s20_start s : s20_r s = r -> s20_x s = s20_state t k nonce 0 -> s20_used s = 64%nat -> s20_at 0 s.
  Proof.
    intros A B C. apply buf_at_0; [discriminate| |exact C]. unfold s20_inv. repeat split; [exact A|exact B].
  Qed.
End Stream.

(** ** The state after create *)
Definition s20_k (r : N) (key iv : list N) : list N :=
  if (length iv <=? 8)%nat then repeated 32 key
  else hsalsa (chacha_nr r) (expand_text (length key)) (repeated 32 key) (firstn 16 (zero_pad 24 iv)).
Definition s20_nonce (iv : list N) : list N := if (length iv <=? 8)%nat then zero_pad 8 iv else skipn 16 (zero_pad 24 iv).
Lemma expand_len n : length (expand_text n) = 16%nat.
Proof. reflexivity. Qed.
Lemma length_le_string k ws : length (le_string k ws) = (k * length ws)%nat.
Proof.
  unfold le_string. induction ws as [|w ws IH]; cbn [flat_map length]; [lia|]. rewrite app_length, length_le_bytes, IH. lia.
Qed.
Lemma bytes_le_string k ws : bytes_ok (le_string k ws).
Proof.
  unfold le_string. induction ws as [|w ws IH]; cbn [flat_map]; [constructor|]. apply bytes_app. split; [apply bytes_le_bytes|exact IH].
Qed.
Lemma le_words_string n ws : words_ok 32 ws -> length ws = n -> le_words 4 n (le_string 4 ws) = ws.
Proof.
  intros W <-. pose proof (loads_stores codec32l ws W) as H. rewrite stores32l_le in H.
  rewrite loads32l_le in H by (try apply bytes_le_string; now rewrite length_le_string).
  rewrite zero_pad_full in H by (now rewrite length_le_string). exact H.
Qed.
Lemma s20_k_ok r key iv : bytes_ok key -> length (s20_k r key iv) = 32%nat /\ bytes_ok (s20_k r key iv).
Proof.
  intros H. unfold s20_k. destruct (_ <=? _)%nat.
  - split; [apply length_repeated|now apply bytes_repeated].
  - unfold hsalsa. split; [rewrite length_le_string; reflexivity|apply bytes_le_string].
Qed.
Lemma s20_nonce_ok iv : bytes_ok iv -> (length iv <= 24)%nat -> length (s20_nonce iv) = 8%nat /\ bytes_ok (s20_nonce iv).
Proof.
  intros H L. unfold s20_nonce. destruct (Nat.leb_spec (length iv) 8).
  - split; [now apply length_zero_pad|now apply bytes_zero_pad].
  - split; [rewrite skipn_length, length_zero_pad by assumption; reflexivity|now apply bytes_skipn, bytes_zero_pad].
Qed.
Lemma le_words_app n m a b : length a = (4 * n)%nat -> le_words 4 (n + m) (a ++ b) = le_words 4 n a ++ le_words 4 m b.
Proof.
  revert a. induction n as [|n IH]; intros a L.
  - destruct a; [reflexivity|discriminate L].
  - cbn [Nat.add]. rewrite !le_words_S. cbn [app]. rewrite firstn_app, skipn_app.
    replace (4 - length a)%nat with 0%nat by lia. rewrite firstn_O, app_nil_r, skipn_O. f_equal. apply IH.
    rewrite skipn_length. lia.
Qed.
Lemma s20_setup_eq r key iv : bytes_ok key -> bytes_ok iv -> (length key <= 32)%nat -> (length iv <= 24)%nat ->
  s20_setup r key iv = (if r =? 0 then 20 else r, s20_state (expand_text (length key)) (s20_k r key iv) (s20_nonce iv) 0).
Proof.
  intros Hk Hi Lk Li. unfold s20_setup. cbv zeta. apply f_equal2; [reflexivity|].
  rewrite key_consts_eq, key_words_eq by assumption. unfold s20_state.
  pose proof (s20_nonce_ok iv Hi Li) as Hn. pose proof (s20_k_ok r key iv Hk) as Hk'.
  rewrite salsa_state_words; [|reflexivity|tauto|rewrite app_length, length_le_bytes; lia].
  unfold s20_k, s20_nonce in *.
  destruct (Nat.leb_spec (length iv) 8) as [A|A].
  - destruct (Nat.ltb_spec 8 (length iv)); [lia|]. destruct (Nat.ltb_spec 16 (length iv)); [lia|].
    apply f_equal. rewrite load_words by (try assumption; lia). rewrite firstn_all.
    f_equal. apply nth_ext with (d := 0) (d' := 0).
    + rewrite app_length, length_le_bytes, !length_zero_pad by lia. reflexivity.
    + intros i Hi'. rewrite nth_zero_pad. change (le_bytes 8 0) with (repeat 0 8).
      destruct (Nat.lt_ge_cases i 8).
      * rewrite app_nth1 by (rewrite length_zero_pad; lia). now rewrite nth_zero_pad.
      * rewrite app_nth2 by (rewrite length_zero_pad; lia). rewrite nth_repeat. apply nth_overflow. lia.
  - destruct (Nat.ltb_spec 8 (length iv)); [|lia].
    assert (E2 : load32l_array iv (repeat 0 4) (if (16 <? length iv)%nat then 16%nat else length iv)
      = le_words 4 4 (firstn 16 (zero_pad 24 iv))).
    { rewrite firstn_zero_pad by lia.
      destruct (Nat.ltb_spec 16 (length iv)).
      - rewrite load_words by (try assumption; lia). reflexivity.
      - rewrite load_words by (try assumption; lia). rewrite firstn_all, firstn_all2 by lia. reflexivity. }
    rewrite E2.
    assert (E3 : (if (16 <? length iv)%nat then load32l_array (skipn 16 iv) [0; 0] (length iv - 16) else [0; 0])
      = le_words 4 2 (skipn 16 (zero_pad 24 iv))).
    { rewrite skipn_zero_pad by lia. destruct (Nat.ltb_spec 16 (length iv)).
      - change [0; 0] with (repeat 0 2). rewrite load_words by (try (now apply bytes_skipn); rewrite ?skipn_length; lia).
        rewrite firstn_all2 by (rewrite skipn_length; lia). reflexivity.
      - rewrite skipn_all2 by lia. reflexivity. }
    rewrite E3.
    assert (L16 : length (firstn 16 (zero_pad 24 iv)) = 16%nat) by (rewrite firstn_length, length_zero_pad; lia).
    assert (B16 : bytes_ok (firstn 16 (zero_pad 24 iv))) by now apply bytes_firstn, bytes_zero_pad.
    rewrite <- salsa_state_words by (try reflexivity; try apply length_repeated; assumption).
    destruct (s20_rounds_eq (if r =? 0 then 20 else r) _ (salsa_state_st (expand_text (length key)) (repeated 32 key)
      (firstn 16 (zero_pad 24 iv)) ltac:(now apply expand_ok) ltac:(now apply bytes_repeated) B16)) as [E4 [L W]].
    rewrite E4 in *. rewrite chacha_nr_eq in *. apply f_equal2.
    + unfold hsalsa. cbv zeta. rewrite le_words_string; [reflexivity| |reflexivity].
      repeat apply words_cons; try apply words_nil; now apply words_nth.
    + change (le_words 4 4) with (le_words 4 (2 + 2)). rewrite le_words_app by tauto. reflexivity.
Qed.

(** ** The theorems *)
Definition salsa20_started (r : N) (key iv : list N) (s : salsa20) : Prop :=
  salsa20_create r key iv = Ok s \/ exists s0, salsa20_recreate s0 r key iv = Ok s.
Lemma salsa20_started_inv r key iv s : bytes_ok key -> bytes_ok iv -> salsa20_started r key iv s ->
  (length key <= 32)%nat /\ (length iv <= 24)%nat /\
  s20_at (if r =? 0 then 20 else r) (expand_text (length key)) (s20_k r key iv) (s20_nonce iv) 0 s.
Proof.
  intros Hk Hi [H|[s0 H]]; unfold salsa20_create, salsa20_recreate in H;
  (destruct (stream_args_ok salsa20_maxkey salsa20_maxiv key iv) eqn:Ea; [|discriminate]); cbn [assert_] in H;
  apply args_inv in Ea; unfold salsa20_maxkey, salsa20_maxiv in Ea; destruct Ea as [Lk Li];
  rewrite s20_setup_eq in H by (auto; lia); injection H as <-; (split; [lia|]); (split; [exact Li|]);
  apply s20_start; reflexivity.
Qed.
Definition salsa20_stream (r : N) (key iv : list N) : nat -> N := ks_byte 64 (fun n => salsa_ks r key iv (N.of_nat n)).
Lemma s20_ks_eq r key iv n : s20_blocks (if r =? 0 then 20 else r) (expand_text (length key)) (s20_k r key iv) (s20_nonce iv) n
  = salsa_ks r key iv (N.of_nat n).
Proof.
  unfold s20_blocks, salsa_ks, s20_k, s20_nonce. rewrite chacha_nr_eq. cbv zeta.
  destruct (_ <=? _)%nat; reflexivity.
Qed.
Lemma ks_byte_ext bs f g i : (forall n, f n = g n) -> ks_byte bs f i = ks_byte bs g i.
Proof. intros H. unfold ks_byte. now rewrite H. Qed.
Section Thm.
  Variables (r : N) (key iv : list N).
  Hypothesis Hk : bytes_ok key.
  Hypothesis Hi : bytes_ok iv.
  Lemma salsa20_session s0 inp s out : salsa20_started r key iv s0 ->
    session salsa20_crypt s0 inp s out -> out = xor_ks (salsa20_stream r key iv) 0 inp.
  Proof.
    intros H0 HS. destruct (salsa20_started_inv _ _ _ _ Hk Hi H0) as (Lk & Li & A).
    pose proof (s20_k_ok r key iv Hk) as Hk'. pose proof (s20_nonce_ok iv Hi Li) as Hn.
    pose proof (conj (expand_len (length key)) (expand_ok _ Lk)) as Ht.
    destruct (session_lim _ _ _ _ (s20_step_ok _ _ _ _ Ht Hk' Hn) _ _ _ _ _ A HS) as [-> _].
    apply xor_ks_ext. intros j _. apply ks_byte_ext. intros n. apply s20_ks_eq.
  Qed.
  Lemma salsa20_gsession s0 s out : salsa20_started r key iv s0 ->
    gsession salsa20_prng s0 s out -> out = map (salsa20_stream r key iv) (seq 0 (length out)).
  Proof.
    intros H0 HS. destruct (salsa20_started_inv _ _ _ _ Hk Hi H0) as (Lk & Li & A).
    pose proof (s20_k_ok r key iv Hk) as Hk'. pose proof (s20_nonce_ok iv Hi Li) as Hn.
    pose proof (conj (expand_len (length key)) (expand_ok _ Lk)) as Ht.
    destruct (gsession_lim _ _ _ _ (s20_next_ok _ _ _ _ Ht Hk' Hn) _ _ _ _ A HS) as [E _].
    rewrite E at 1. apply map_ext_seq. intros j _. apply ks_byte_ext. intros n. apply s20_ks_eq.
  Qed.
  Lemma salsa20_roundtrip s0 s0' inp s out s' back : salsa20_started r key iv s0 -> salsa20_started r key iv s0' ->
    session salsa20_crypt s0 inp s out -> session salsa20_crypt s0' out s' back -> back = inp.
  Proof.
    intros H0 H0' HS HS'. rewrite (salsa20_session _ _ _ _ H0' HS'), (salsa20_session _ _ _ _ H0 HS). apply xor_ks_invol.
  Qed.
  Lemma salsa20_safe s0 inp s out n : salsa20_started r key iv s0 ->
    session salsa20_crypt s0 inp s out -> N.of_nat (length inp + n) <= 2 ^ 70 - 64 ->
    call_safe_upto salsa20_crypt n s /\ gcall_safe_upto salsa20_prng n s.
  Proof.
    intros H0 HS Hle. destruct (salsa20_started_inv _ _ _ _ Hk Hi H0) as (Lk & Li & A).
    pose proof (s20_k_ok r key iv Hk) as Hk'. pose proof (s20_nonce_ok iv Hi Li) as Hn.
    pose proof (conj (expand_len (length key)) (expand_ok _ Lk)) as Ht.
    destruct (session_lim _ _ _ _ (s20_step_ok _ _ _ _ Ht Hk' Hn) _ _ _ _ _ A HS) as [_ B].
    split.
    - apply (safe_lim _ _ _ _ (s20_step_ok _ _ _ _ Ht Hk' Hn) _ _ _ B). intros j Hj. now apply cc_lim_true with (n := n).
    - apply (gsafe_lim _ _ _ _ (s20_next_ok _ _ _ _ Ht Hk' Hn) _ _ _ B). intros j Hj. now apply cc_lim_true with (n := n).
  Qed.
  Lemma salsa20_gsafe s0 s out n : salsa20_started r key iv s0 ->
    gsession salsa20_prng s0 s out -> N.of_nat (length out + n) <= 2 ^ 70 - 64 ->
    call_safe_upto salsa20_crypt n s /\ gcall_safe_upto salsa20_prng n s.
  Proof.
    intros H0 HS Hle. destruct (salsa20_started_inv _ _ _ _ Hk Hi H0) as (Lk & Li & A).
    pose proof (s20_k_ok r key iv Hk) as Hk'. pose proof (s20_nonce_ok iv Hi Li) as Hn.
    pose proof (conj (expand_len (length key)) (expand_ok _ Lk)) as Ht.
    destruct (gsession_lim _ _ _ _ (s20_next_ok _ _ _ _ Ht Hk' Hn) _ _ _ _ A HS) as [_ B].
    split.
    - apply (safe_lim _ _ _ _ (s20_step_ok _ _ _ _ Ht Hk' Hn) _ _ _ B). intros j Hj. now apply cc_lim_true with (n := n).
    - apply (gsafe_lim _ _ _ _ (s20_next_ok _ _ _ _ Ht Hk' Hn) _ _ _ B). intros j Hj. now apply cc_lim_true with (n := n).
  Qed.
End Thm.
Lemma salsa20_create_total r key iv : (0 < length key <= 32)%nat -> (length iv <= 24)%nat -> exists s, salsa20_create r key iv = Ok s.
Proof.
  intros Hk Hi. unfold salsa20_create, stream_args_ok, salsa20_maxkey, salsa20_maxiv.
  rewrite (proj2 (Nat.ltb_lt _ _)), !(proj2 (Nat.leb_le _ _)) by lia. cbn [andb assert_].
  destruct (s20_setup r key iv). eauto.
Qed.
