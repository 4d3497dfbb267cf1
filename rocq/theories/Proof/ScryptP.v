(** scrypt. *)
From Coq Require Import NArith Arith List Bool Lia ZifyBool.
From Verif Require Import Lib.Word Lib.Res Lib.Bytes Lib.XorBytes Lib.Lists Lib.WordSpec Model.LoadStore Proof.LoadStoreP Spec.Words Spec.Modes Spec.Chacha Spec.Salsa20 Spec.Kdf
  Model.MacApi Model.Chacha Model.Salsa20 Model.Kdf Proof.ChachaP Proof.Salsa20P Proof.CbcMacP Proof.IdeaPubP.
Import ListNotations.
Local Open Scope nat_scope.

(** ** Arrays *)
Definition splice (w : list N) (o : nat) (l : list N) : list N := firstn o w ++ l ++ skipn (o + length l) w.
Lemma put_ok w o l : o + length l <= length w -> put_words w o l = Ok (splice w o l).
Proof. intros H. unfold put_words. destruct (Nat.leb_spec (o + length l) (length w)); [reflexivity|lia]. Qed.
Lemma get_slice w o n : o + n <= length w -> get_words w o n = Ok (slice o n w).
Proof. intros H. unfold get_words. destruct (Nat.leb_spec (o + n) (length w)); [reflexivity|lia]. Qed.
Lemma length_splice w o l : o + length l <= length w -> length (splice w o l) = length w.
Proof. intros H. unfold splice. rewrite !app_length, firstn_length, skipn_length. lia. Qed.
Lemma nth_splice w o l i : o + length l <= length w -> nth i (splice w o l) 0%N = if (o <=? i) && (i <? o + length l) then nth (i - o) l 0%N else nth i w 0%N.
Proof.
  intros H. unfold splice. assert (Lf : length (firstn o w) = o) by (rewrite firstn_length; lia).
  destruct (Nat.leb_spec o i) as [A|A]; cbn [andb].
  - rewrite app_nth2 by lia. rewrite Lf. destruct (Nat.ltb_spec i (o + length l)) as [B|B].
    + now rewrite app_nth1 by lia.
    + rewrite app_nth2 by lia. rewrite nth_skipn. f_equal. lia.
  - rewrite app_nth1 by lia. now rewrite nth_firstn.
Qed.
Lemma slice_ext w w' o n : o + n <= length w -> o + n <= length w' -> (forall i, o <= i < o + n -> nth i w 0%N = nth i w' 0%N) -> slice o n w = slice o n w'.
Proof. intros H H' E. rewrite !slice_nth by assumption. apply map_ext_in. intros i Hi. apply in_seq in Hi. apply E. lia. Qed.
Lemma slice_splice_out w o l o' n : o + length l <= length w -> o' + n <= length w -> o' + n <= o \/ o + length l <= o' -> slice o' n (splice w o l) = slice o' n w.
Proof.
  intros H H' D. apply slice_ext; [now rewrite length_splice|exact H'|]. intros i Hi. rewrite nth_splice by exact H.
  destruct (Nat.leb_spec o i), (Nat.ltb_spec i (o + length l)); cbn [andb]; try reflexivity. lia.
Qed.
Lemma slice_splice_in w o l : o + length l <= length w -> slice o (length l) (splice w o l) = l.
Proof.
  intros H. rewrite slice_nth by (now rewrite length_splice). transitivity (map (fun i => nth i l 0%N) (seq 0 (length l))); [|now apply map_nth_seq].
  apply map_ext_in. intros i Hi. apply in_seq in Hi. rewrite nth_splice by exact H. destruct (Nat.leb_spec o (o + i)), (Nat.ltb_spec (o + i) (o + length l)); cbn [andb]; try lia.
  f_equal. lia.
Qed.
Lemma slice_splice_at w o l n : length l = n -> o + n <= length w -> slice o n (splice w o l) = l.
Proof. intros <-. apply slice_splice_in. Qed.
Lemma splice_self w o n : o + n <= length w -> splice w o (slice o n w) = w.
Proof.
  intros H. assert (L : length (slice o n w) = n) by (now apply length_slice). apply nth_ext with (d := 0%N) (d' := 0%N); [apply length_splice; lia|]. intros i _. rewrite nth_splice by lia. rewrite L.
  destruct (Nat.leb_spec o i), (Nat.ltb_spec i (o + n)); cbn [andb]; try reflexivity. rewrite nth_slice by lia. f_equal. lia.
Qed.
Lemma slice_app {A} o n m (l : list A) : slice o (n + m) l = slice o n l ++ slice (o + n) m l.
Proof. unfold slice. rewrite <- (firstn_skipn n (firstn (n + m) (skipn o l))). rewrite firstn_firstn, Nat.min_l by lia. f_equal. rewrite <- firstn_skipn_comm, skipn_skipn. f_equal. f_equal. lia. Qed.
Lemma slice_slice {A} o n o' n' (l : list A) : o' + n' <= n -> slice o' n' (slice o n l) = slice (o + o') n' l.
Proof.
  intros H. unfold slice. replace n with (o' + (n - o')) by lia. rewrite <- firstn_skipn_comm, firstn_firstn, skipn_skipn, Nat.min_l by lia. f_equal. f_equal. lia.
Qed.
Lemma slice_blocks {A} k o n (l : list A) : slice o (k * n) l = concat (map (fun i => slice (o + k * i) k l) (seq 0 n)).
Proof.
  induction n as [|n IH]; [now rewrite Nat.mul_0_r|]. rewrite seq_S, map_app, concat_app. cbn [map concat]. rewrite app_nil_r, <- IH. replace (k * S n) with (k * n + k) by lia. apply slice_app.
Qed.
Lemma words_get w o n : words_ok 32 w -> words_ok 32 (slice o n w).
Proof. apply words_slice. Qed.

(** ** The block function, on words *)
Fixpoint wchain (x : list N) (bs : list (list N)) : list (list N) :=
  match bs with [] => [] | b :: bs => let x := sc_core (xor_words x b) in x :: wchain x bs end.
Definition wy (r : nat) (X : list N) : list (list N) := wchain (slice (32 * r - 16) 16 X) (map (fun i => slice (16 * i) 16 X) (seq 0 (2 * r))).
Definition wmix (r : nat) (X : list N) : list N :=
  concat (map (fun i => nth (2 * i) (wy r X) []) (seq 0 r)) ++ concat (map (fun i => nth (2 * i + 1) (wy r X) []) (seq 0 r)).

Lemma xor_words_bytes a b : xor_words a b = xor_bytes a b.
Proof. apply xor_list_bytes. Qed.
Lemma xor_words_ok a : forall b, words_ok 32 a -> words_ok 32 b -> words_ok 32 (xor_bytes a b).
Proof. induction a as [|x a IH]; intros [|y b] Ha Hb; cbn [xor_bytes]; try apply Forall_nil. inversion Ha; inversion Hb; subst. apply Forall_cons; [wb|now apply IH]. Qed.
Lemma add_words_len a : forall b, length (add_words a b) = Nat.min (length a) (length b).
Proof. induction a as [|x a IH]; intros [|y b]; try reflexivity. cbn [add_words length Nat.min]. now rewrite IH. Qed.
Lemma add_words_ok a : forall b, words_ok 32 (add_words a b).
Proof. induction a as [|x a IH]; intros [|y b]; cbn [add_words]; try apply Forall_nil. apply Forall_cons; [wb|apply IH]. Qed.
Lemma add_words_comm a : forall b, add_words a b = add_words b a.
Proof. induction a as [|x a IH]; intros [|y b]; try reflexivity. cbn [add_words]. rewrite IH. f_equal. unfold wadd. f_equal. apply N.add_comm. Qed.
Lemma sc_core_st x : st16 x -> st16 (sc_core x).
Proof. intros H. destruct (s20_rounds_eq 8 x H) as [_ [L _]]. split; [|apply add_words_ok]. unfold sc_core. rewrite add_words_len, L. destruct H as [-> _]. reflexivity. Qed.
Lemma sc_core_hash x : st16 x -> le_string 4 (sc_core x) = salsa_hash 8 x.
Proof. intros H. change 8 with (N.to_nat 8). rewrite <- (s20_core_hash 8 x H). unfold s20_core, sc_core. now rewrite stores32l_le, add_words_comm. Qed.
Lemma xor_st a b : st16 a -> st16 b -> st16 (xor_bytes a b).
Proof. intros [La Wa] [Lb Wb]. split; [rewrite length_xor, La, Lb; reflexivity|now apply xor_words_ok]. Qed.
Lemma slice_st o w : words_ok 32 w -> o + 16 <= length w -> st16 (slice o 16 w).
Proof. intros W L. split; [now apply length_slice|now apply words_get]. Qed.

Lemma wchain_len bs : forall x, length (wchain x bs) = length bs.
Proof. induction bs as [|b bs IH]; intros x; [reflexivity|]. cbn [wchain length]. now rewrite IH. Qed.
Lemma wchain_ok bs : forall x, st16 x -> Forall st16 bs -> Forall st16 (wchain x bs).
Proof. induction bs as [|b bs IH]; intros x Hx Hb; [constructor|]. inversion Hb; subst. cbn [wchain]. rewrite xor_words_bytes. assert (X := sc_core_st _ (xor_st _ _ Hx H1)). constructor; [exact X|now apply IH]. Qed.
Lemma wchain_nth bs : forall x i, i < length bs -> nth i (wchain x bs) [] = sc_core (xor_words (match i with O => x | S j => nth j (wchain x bs) [] end) (nth i bs [])).
Proof.
  induction bs as [|b bs IH]; intros x i Hi; [cbn [length] in Hi; lia|]. destruct i as [|i]; [reflexivity|]. cbn [wchain nth]. rewrite IH by (cbn [length] in Hi; lia). destruct i; reflexivity.
Qed.
Lemma wy_len r X : length (wy r X) = 2 * r.
Proof. unfold wy. now rewrite wchain_len, map_length, seq_length. Qed.
Lemma wy_ok r X : 0 < r -> words_ok 32 X -> length X = 32 * r -> Forall st16 (wy r X).
Proof.
  intros Hr W L. apply wchain_ok; [apply slice_st; [exact W|lia]|]. apply Forall_forall. intros b Hb. apply in_map_iff in Hb. destruct Hb as (i & <- & Hi). apply in_seq in Hi. apply slice_st; [exact W|lia].
Qed.
Lemma wy_nth_ok r X i : 0 < r -> words_ok 32 X -> length X = 32 * r -> i < 2 * r -> st16 (nth i (wy r X) []).
Proof. intros Hr W L Hi. apply (proj1 (Forall_forall _ _) (wy_ok r X Hr W L)). apply nth_In. now rewrite wy_len. Qed.
Lemma wy_nth r X i : i < 2 * r -> nth i (wy r X) [] = sc_core (xor_words (match i with O => slice (32 * r - 16) 16 X | S j => nth j (wy r X) [] end) (slice (16 * i) 16 X)).
Proof.
  intros Hi. unfold wy at 1. rewrite wchain_nth by (now rewrite map_length, seq_length). f_equal. f_equal. rewrite nth_map_seq by exact Hi. reflexivity.
Qed.
Lemma concat_st (f : nat -> list N) n : (forall i, i < n -> st16 (f i)) -> words_ok 32 (concat (map f (seq 0 n))) /\ length (concat (map f (seq 0 n))) = 16 * n.
Proof.
  induction n as [|n IH]; intros H; [split; [constructor|reflexivity]|]. rewrite seq_S, map_app, concat_app. cbn [map concat]. rewrite app_nil_r. destruct IH as [A B]; [intros; apply H; lia|].
  destruct (H n ltac:(lia)) as [C D]. split; [apply Forall_app; now split|]. rewrite app_length, B. cbn [Nat.add] in *. lia.
Qed.
Lemma wmix_ok r X : 0 < r -> words_ok 32 X -> length X = 32 * r -> words_ok 32 (wmix r X) /\ length (wmix r X) = 32 * r.
Proof.
  intros Hr W L. unfold wmix. destruct (concat_st (fun i => nth (2 * i) (wy r X) []) r) as [A B]; [intros; apply wy_nth_ok; try assumption; lia|].
  destruct (concat_st (fun i => nth (2 * i + 1) (wy r X) []) r) as [C D]; [intros; apply wy_nth_ok; try assumption; lia|].
  split; [apply Forall_app; now split|]. rewrite app_length, B, D. lia.
Qed.

(** ... and on bytes *)
Lemma le_string_app a b : le_string 4 (a ++ b) = le_string 4 a ++ le_string 4 b.
Proof. apply flat_map_app. Qed.
Lemma le_string_xor a : forall b, length a = length b -> le_string 4 (xor_bytes a b) = xor_bytes (le_string 4 a) (le_string 4 b).
Proof.
  induction a as [|x a IH]; intros [|y b] L; try reflexivity; try discriminate L. cbn [xor_bytes le_string flat_map]. fold (le_string 4 (xor_bytes a b)). fold (le_string 4 a). fold (le_string 4 b).
  rewrite IH by (now injection L). rewrite le_bytes_lxor. symmetry. apply xor_app. now rewrite !length_le_bytes.
Qed.
Lemma le_string_firstn n : forall w, firstn (4 * n) (le_string 4 w) = le_string 4 (firstn n w).
Proof.
  induction n as [|n IH]; intros w; [reflexivity|]. destruct w as [|x w]; [now rewrite firstn_nil|]. cbn [le_string flat_map firstn]. fold (le_string 4 w). fold (le_string 4 (firstn n w)). rewrite <- IH.
  rewrite firstn_app, length_le_bytes, firstn_all2 by (rewrite length_le_bytes; lia). f_equal. f_equal. lia.
Qed.
Lemma le_string_skipn n : forall w, skipn (4 * n) (le_string 4 w) = le_string 4 (skipn n w).
Proof.
  induction n as [|n IH]; intros w; [reflexivity|]. destruct w as [|x w]; [now rewrite !skipn_nil|]. cbn [le_string flat_map skipn]. fold (le_string 4 w). fold (le_string 4 (skipn n w)). rewrite <- IH.
  rewrite skipn_app, length_le_bytes, skipn_all2 by (rewrite length_le_bytes; lia). cbn [app]. f_equal. lia.
Qed.
Lemma le_string_slice o n w : slice (4 * o) (4 * n) (le_string 4 w) = le_string 4 (slice o n w).
Proof. unfold slice. now rewrite le_string_skipn, le_string_firstn. Qed.
Lemma salsa8_words x : st16 x -> salsa8 (le_string 4 x) = le_string 4 (sc_core x).
Proof. intros H. unfold salsa8. rewrite le_words_string by apply H. symmetry. now apply sc_core_hash. Qed.
Lemma mix_chain_words bs : forall x, st16 x -> Forall st16 bs -> mix_chain (le_string 4 x) (map (le_string 4) bs) = map (le_string 4) (wchain x bs).
Proof.
  induction bs as [|b bs IH]; intros x Hx Hb; [reflexivity|]. inversion Hb; subst. cbn [map mix_chain wchain]. rewrite <- le_string_xor by (destruct Hx as [-> _], H1 as [-> _]; reflexivity).
  rewrite xor_words_bytes. assert (X := xor_st _ _ Hx H1). rewrite salsa8_words by exact X. f_equal. apply IH; [now apply sc_core_st|assumption].
Qed.
Lemma le_string_concat l : le_string 4 (concat l) = concat (map (le_string 4) l).
Proof. induction l as [|x l IH]; [reflexivity|]. cbn [concat map]. now rewrite le_string_app, IH. Qed.
Theorem block_mix_words r X : 0 < r -> words_ok 32 X -> length X = 32 * r -> block_mix r (le_string 4 X) = le_string 4 (wmix r X).
Proof.
  intros Hr W L. unfold block_mix, wmix. rewrite le_string_app, !le_string_concat, !map_map.
  assert (E : mix_chain (slice (64 * (2 * r - 1)) 64 (le_string 4 X)) (blocks64 (2 * r) (le_string 4 X)) = map (le_string 4) (wy r X)).
  { unfold wy. rewrite <- mix_chain_words.
    - f_equal.
      + rewrite <- le_string_slice. f_equal. lia.
      + unfold blocks64. rewrite map_map. apply map_ext. intros i. rewrite <- le_string_slice. f_equal. lia.
    - apply slice_st; [exact W|lia].
    - apply Forall_forall. intros b Hb. apply in_map_iff in Hb. destruct Hb as (i & <- & Hi). apply in_seq in Hi. apply slice_st; [exact W|lia]. }
  rewrite E. assert (Z : forall i, nth i (map (le_string 4) (wy r X)) [] = le_string 4 (nth i (wy r X) [])) by (intros i; change (@nil N) with (le_string 4 []) at 1; apply map_nth).
  f_equal; f_equal; apply map_ext; intros i; apply Z.
Qed.

(** ** The code of the block function *)
Lemma blockmix_full w b t r : 0 < r -> words_ok 32 (slice b (32 * r) w) -> b + 32 * r <= length w -> t + 32 * r <= length w -> b + 32 * r <= t \/ t + 32 * r <= b ->
  exists w', sc_blockmix w b t r = Ok w' /\ length w' = length w /\ slice b (32 * r) w' = wmix r (slice b (32 * r) w) /\ slice t (32 * r) w' = concat (wy r (slice b (32 * r) w)) /\
    forall o n, o + n <= length w -> o + n <= b \/ b + 32 * r <= o -> o + n <= t \/ t + 32 * r <= o -> slice o n w' = slice o n w.
Proof.
  intros Hr W Hb Ht D. set (X := slice b (32 * r) w) in *. assert (LX : length X = 32 * r) by (now apply length_slice). set (Y := wy r X).
  assert (Yok : forall i, i < 2 * r -> st16 (nth i Y [])) by (intros; now apply wy_nth_ok).
  unfold sc_blockmix. rewrite get_slice by lia. cbn [bind].
  (* first loop *)
  assert (S1 : forall i, i <= 2 * r -> exists w1, mfor i 0 (sc_chain b t)
      (w, slice (b + 32 * r - 16) 16 w) = Ok (w1, match i with O => slice (b + 32 * r - 16) 16 w | S j => nth j Y [] end) /\ length w1 = length w /\
    (forall j, j < i -> slice (t + 16 * j) 16 w1 = nth j Y []) /\ (forall o n, o + n <= length w -> o + n <= t \/ t + 32 * r <= o -> slice o n w1 = slice o n w)).
  { induction i as [|i IH]; intros Hi.
    - exists w. split; [reflexivity|]. split; [reflexivity|]. split; [intros; lia|reflexivity].
    - destruct (IH ltac:(lia)) as (w1 & E & L1 & Yj & Fr). rewrite mfor_S, E. cbn [bind Nat.add]. unfold sc_chain. cbn [fst snd]. rewrite get_slice by lia. cbn [bind].
      assert (Ex : sc_core (xor_words match i with O => slice (b + 32 * r - 16) 16 w | S j => nth j Y [] end (slice (b + 16 * i) 16 w1)) = nth i Y []).
      { unfold Y. rewrite (wy_nth r X i) by lia. fold Y. f_equal. f_equal.
        - destruct i; [|reflexivity]. unfold X. rewrite slice_slice by lia. f_equal. lia.
        - rewrite Fr by lia. unfold X. now rewrite slice_slice by lia. }
      rewrite Ex. assert (Ln : length (nth i Y []) = 16) by (apply Yok; lia). rewrite put_ok by lia. cbn [bind].
      exists (splice w1 (t + 16 * i) (nth i Y [])). split; [reflexivity|]. split; [rewrite length_splice; lia|]. split.
      + intros j Hj. destruct (Nat.eq_dec j i) as [->|Z]; [apply slice_splice_at; lia|]. rewrite slice_splice_out by lia. apply Yj. lia.
      + intros o n Ho Hd. rewrite slice_splice_out by lia. apply Fr; [exact Ho|lia]. }
  destruct (S1 (2 * r) (le_n _)) as (w1 & E1 & L1 & Yj & Fr1). rewrite E1. cbn [bind fst]. clear E1 S1.
  assert (S2 : forall i, i <= r -> exists w2, mfor i 0 (sc_shuffle b t r) w1 = Ok w2 /\
    length w2 = length w /\ (forall j, j < i -> slice (b + 16 * j) 16 w2 = nth (2 * j) Y [] /\ slice (b + 16 * (j + r)) 16 w2 = nth (2 * j + 1) Y []) /\
    (forall o n, o + n <= length w -> o + n <= b \/ b + 32 * r <= o -> slice o n w2 = slice o n w1)).
  { induction i as [|i IH]; intros Hi.
    - exists w1. split; [reflexivity|]. split; [exact L1|]. split; [intros; lia|reflexivity].
    - destruct (IH ltac:(lia)) as (w2 & E & L2 & Zj & Fr). rewrite mfor_S, E. cbn [bind Nat.add]. unfold sc_shuffle at 1. rewrite get_slice by lia. cbn [bind].
      assert (A0 : slice (t + 32 * i) 16 w2 = nth (2 * i) Y []) by (rewrite Fr by lia; rewrite <- Yj by lia; f_equal; lia).
      assert (A1 : slice (t + 32 * i + 16) 16 w2 = nth (2 * i + 1) Y []) by (rewrite Fr by lia; rewrite <- Yj by lia; f_equal; lia).
      rewrite A0. assert (Ln0 : length (nth (2 * i) Y []) = 16) by (apply Yok; lia). assert (Ln1 : length (nth (2 * i + 1) Y []) = 16) by (apply Yok; lia).
      rewrite put_ok by lia. cbn [bind]. set (w3 := splice w2 (b + 16 * i) (nth (2 * i) Y [])). assert (L3 : length w3 = length w) by (unfold w3; rewrite length_splice; lia).
      rewrite get_slice by lia. cbn [bind]. assert (A2 : slice (t + 32 * i + 16) 16 w3 = nth (2 * i + 1) Y []) by (unfold w3; rewrite slice_splice_out by lia; exact A1).
      rewrite A2, put_ok by lia. exists (splice w3 (b + 16 * (i + r)) (nth (2 * i + 1) Y [])). split; [reflexivity|]. split; [rewrite length_splice; lia|]. split.
      + intros j Hj. destruct (Nat.eq_dec j i) as [->|Z].
        * split; [|apply slice_splice_at; lia]. rewrite slice_splice_out by lia. unfold w3. apply slice_splice_at; lia.
        * destruct (Zj j ltac:(lia)) as [B0 B1]. split; (rewrite slice_splice_out by lia); unfold w3; (rewrite slice_splice_out by lia); assumption.
      + intros o n Ho Hd. rewrite slice_splice_out by lia. unfold w3. rewrite slice_splice_out by lia. now apply Fr. }
  destruct (S2 r (le_n _)) as (w2 & E2 & L2 & Zj & Fr2). exists w2. split; [exact E2|]. split; [exact L2|]. split.
  - replace (32 * r) with (16 * r + 16 * r) by lia. rewrite slice_app. unfold wmix. fold Y. rewrite !slice_blocks. f_equal; f_equal; apply map_ext_in; intros i Hi; apply in_seq in Hi.
    + apply Zj. lia.
    + rewrite <- (proj2 (Zj i ltac:(lia))). f_equal. lia.
  - split; [|intros o n Ho H1 H2; rewrite Fr2 by assumption; now apply Fr1]. rewrite Fr2 by lia. fold Y. replace (32 * r) with (16 * (2 * r)) by lia. rewrite slice_blocks.
    assert (LY : length Y = 2 * r) by apply wy_len. rewrite <- (map_nth_seq Y (2 * r) [] (eq_sym LY)) at 1. f_equal. apply map_ext_in. intros i Hi. apply in_seq in Hi. apply Yj. lia.
Qed.

(** ** The code of SMix, blocks of [32 r] words; t1 is block [a] and t2 is block [e] *)
Fixpoint iterf {A} (n : nat) (f : A -> A) (x : A) : A := match n with O => x | S n => f (iterf n f x) end.
Lemma iter_wmix_ok r n X : 0 < r -> words_ok 32 X -> length X = 32 * r -> words_ok 32 (iterf n (wmix r) X) /\ length (iterf n (wmix r) X) = 32 * r.
Proof. intros Hr W L. induction n as [|n [A B]]; [now split|]. cbn [iterf]. now apply wmix_ok. Qed.
Lemma iter_swap {A} (f : A -> A) n x : iterf n f (f x) = f (iterf n f x).
Proof. induction n as [|n IH]; [reflexivity|]. cbn [iterf]. now rewrite IH. Qed.
Lemma mix_save_words r : 0 < r -> forall n X, words_ok 32 X -> length X = 32 * r -> mix_save r n (le_string 4 X) = (map (fun i => le_string 4 (iterf i (wmix r) X)) (seq 0 n), le_string 4 (iterf n (wmix r) X)).
Proof.
  intros Hr. induction n as [|n IH]; intros X W L; [reflexivity|]. cbn [mix_save]. rewrite (block_mix_words r X Hr W L). destruct (wmix_ok r X Hr W L) as [W1 L1]. rewrite (IH _ W1 L1). cbn [fst snd seq map]. f_equal.
  - f_equal. rewrite <- seq_shift, map_map. apply map_ext. intros i. cbn [iterf]. now rewrite iter_swap.
  - cbn [iterf]. now rewrite iter_swap.
Qed.

Section Smix.
  Variables (r a e : nat) (n : N) (len : nat).
  Hypotheses (Hr : 0 < r) (Hae : a <> e) (Hl : 32 * r * Nat.max (N.to_nat n) (Nat.max (S a) (S e)) <= len).
  Let B := 32 * r.
  Definition at_block (i : nat) (w : list N) : list N := slice (B * i) B w.
  Lemma block_in i : i < Nat.max (N.to_nat n) (Nat.max (S a) (S e)) -> B * i + B <= len.
  Proof. intros H. unfold B. assert (32 * r * S i <= 32 * r * Nat.max (N.to_nat n) (Nat.max (S a) (S e))) by (apply Nat.mul_le_mono_l; lia). lia. Qed.
  Lemma block_apart i j : i <> j -> B * i + B <= B * j \/ B * j + B <= B * i.
  Proof.
    intros H. destruct (Nat.lt_ge_cases i j) as [X|X].
    - left. assert (B * S i <= B * j) by (apply Nat.mul_le_mono_l; lia). lia.
    - right. assert (B * S j <= B * i) by (apply Nat.mul_le_mono_l; lia). lia.
  Qed.
  Lemma at_len i w : length w = len -> i < Nat.max (N.to_nat n) (Nat.max (S a) (S e)) -> length (at_block i w) = B.
  Proof. intros L H. apply length_slice. rewrite L. now apply block_in. Qed.
  (** blockmix with t1 and t2 *)
  Lemma mix_full w : length w = len -> words_ok 32 (at_block a w) ->
    exists w', sc_blockmix w (B * a) (B * e) r = Ok w' /\ length w' = len /\ at_block a w' = wmix r (at_block a w) /\ at_block e w' = concat (wy r (at_block a w)) /\
      forall j, j < Nat.max (N.to_nat n) (Nat.max (S a) (S e)) -> j <> a -> j <> e -> at_block j w' = at_block j w.
  Proof.
    intros L W. assert (Ia := block_in a ltac:(lia)). assert (Ie := block_in e ltac:(lia)).
    destruct (blockmix_full w (B * a) (B * e) r Hr W ltac:(rewrite L; exact Ia) ltac:(rewrite L; exact Ie) (block_apart a e Hae)) as (w' & E & L' & X & T & Fr).
    exists w'. split; [exact E|]. split; [now rewrite L'|]. split; [exact X|]. split; [exact T|]. intros j Hj Ja Je. apply Fr.
    - rewrite L. now apply block_in.
    - destruct (block_apart j a Ja); [left|right]; assumption.
    - destruct (block_apart j e Je); [left|right]; assumption.
  Qed.
  Lemma mix_at w : length w = len -> words_ok 32 (at_block a w) ->
    exists w', sc_blockmix w (B * a) (B * e) r = Ok w' /\ length w' = len /\ at_block a w' = wmix r (at_block a w) /\
      forall j, j < Nat.max (N.to_nat n) (Nat.max (S a) (S e)) -> j <> a -> j <> e -> at_block j w' = at_block j w.
  Proof. intros L W. destruct (mix_full w L W) as (w' & A & C & D & _ & F). now exists w'. Qed.
  Lemma put_at w i l : length w = len -> i < Nat.max (N.to_nat n) (Nat.max (S a) (S e)) -> length l = B ->
    exists w', put_words w (B * i) l = Ok w' /\ length w' = len /\ at_block i w' = l /\ forall j, j < Nat.max (N.to_nat n) (Nat.max (S a) (S e)) -> j <> i -> at_block j w' = at_block j w.
  Proof.
    intros L Hi Ll. assert (Ii := block_in i Hi). exists (splice w (B * i) l). split; [apply put_ok; lia|]. split; [rewrite length_splice; lia|]. split.
    - unfold at_block. apply slice_splice_at; lia.
    - intros j Hj Hd. assert (Ij := block_in j Hj). apply slice_splice_out; [lia|lia|]. rewrite Ll. destruct (block_apart j i Hd); [left|right]; assumption.
  Qed.
  Variable X : list N.
  Hypotheses (WX : words_ok 32 X) (LX : length X = B).
  Let V i := iterf i (wmix r) X.
  Lemma V_ok i : words_ok 32 (V i) /\ length (V i) = B. Proof. now apply iter_wmix_ok. Qed.
  Lemma fill_ok w k : length w = len -> at_block a w = X -> k <= N.to_nat n ->
    exists w', mfor k 0 (sc_fill r 0 (B * a) (B * e)) w = Ok w' /\
      length w' = len /\ at_block a w' = V k /\ forall j, j < k -> j <> a -> j <> e -> at_block j w' = V j.
  Proof.
    intros L Ea. induction k as [|k IH]; intros Hk.
    - exists w. split; [reflexivity|]. split; [exact L|]. split; [exact Ea|]. intros; lia.
    - destruct (IH ltac:(lia)) as (w1 & E & L1 & A1 & Fr). rewrite mfor_S, E. cbn [bind Nat.add]. unfold sc_fill at 1. fold B. cbn [Nat.add]. rewrite get_slice by (rewrite L1; apply block_in; lia). cbn [bind]. fold (at_block a w1). rewrite A1.
      destruct (V_ok k) as [Wk Lk]. destruct (put_at w1 k (V k) L1 ltac:(lia) Lk) as (w2 & E2 & L2 & A2 & Fr2). rewrite E2. cbn [bind].
      assert (Aa : at_block a w2 = V k). { destruct (Nat.eq_dec k a) as [<-|Z]; [exact A2|]. rewrite Fr2 by lia. exact A1. }
      destruct (mix_at w2 L2 ltac:(rewrite Aa; exact Wk)) as (w3 & E3 & L3 & A3 & Fr3). exists w3. split; [exact E3|]. split; [exact L3|]. split; [rewrite A3, Aa; reflexivity|].
      intros j Hj Ja Je. rewrite Fr3 by lia. destruct (Nat.eq_dec j k) as [->|Z]; [exact A2|]. rewrite Fr2 by lia. apply Fr; lia.
  Qed.
  Variable bits : N.
  Hypotheses (Hn : n = (2 ^ bits)%N) (Hbits : (bits <= 64)%N).
  Lemma integerify_words x : words_ok 32 x -> length x = B ->
    integerify r (le_string 4 x) n = N.to_nat (N.land (N.lor (N.shiftl (nth (B - 15) x 0%N) 32) (nth (B - 16) x 0%N)) (n - 1)).
  Proof.
    intros W L. unfold integerify. f_equal. replace (64 * (2 * r - 1)) with (4 * (B - 16)) by (unfold B; lia). change 64 with (4 * 16). rewrite le_string_slice.
    assert (Ls : length (slice (B - 16) 16 x) = 16) by (apply length_slice; unfold B in *; lia).
    rewrite slice_nth by (unfold B in *; lia). cbn [seq map]. set (l := nth (B - 16 + 0) x 0%N). set (h := nth (B - 16 + 1) x 0%N).
    replace (nth (B - 15) x 0%N) with h by (unfold h; f_equal; unfold B; lia). replace (nth (B - 16) x 0%N) with l by (unfold l; f_equal; lia).
    set (rest := map (fun i => nth (B - 16 + i) x 0%N) [2; 3; 4; 5; 6; 7; 8; 9; 10; 11; 12; 13; 14; 15]).
    change (le_val (le_string 4 (l :: h :: rest)) mod n = N.land (N.lor (N.shiftl h 32) l) (n - 1))%N.
    assert (Wl : inw 32 l) by (apply Forall_nth; [exact W|unfold B in *; lia]). assert (Wh : inw 32 h) by (apply Forall_nth; [exact W|unfold B in *; lia]).
    unfold le_string. cbn [flat_map]. fold (le_string 4 rest). rewrite !le_val_app, !length_le_bytes, !le_val_bytes.
    change (256 ^ N.of_nat 4)%N with (2 ^ 32)%N. rewrite (N.mod_small l) by exact Wl. rewrite (N.mod_small h) by exact Wh. rewrite Hn, <- N.pred_sub, <- N.ones_equiv, N.land_ones.
    assert (El : N.lor (N.shiftl h 32) l = (l + 2 ^ 32 * h)%N).
    { rewrite N.lor_comm, lor_add by exact Wl. lia. }
    rewrite El. replace (l + 2 ^ 32 * (h + 2 ^ 32 * le_val (le_string 4 rest)))%N with ((l + 2 ^ 32 * h) + (2 ^ (64 - bits) * le_val (le_string 4 rest)) * 2 ^ bits)%N.
    - apply N.mod_add. apply N.pow_nonzero. discriminate.
    - assert (P : (2 ^ (64 - bits) * 2 ^ bits = 2 ^ 32 * 2 ^ 32)%N) by (rewrite <- N.pow_add_r; replace (64 - bits + bits)%N with 64%N by lia; reflexivity).
      rewrite (N.mul_comm (2 ^ (64 - bits))), <- N.mul_assoc, P. ring.
  Qed.
  Lemma use_ok w k : forall i x, length w = len -> at_block a w = x -> words_ok 32 x -> (forall j, j < N.to_nat n -> j <> a -> j <> e -> at_block j w = V j) ->
    (forall j, In j (mix_draws r n (map (fun i => le_string 4 (V i)) (seq 0 (N.to_nat n))) k (le_string 4 x)) -> j <> a /\ j <> e) ->
    exists w' y, mfor k i (fun _ => sc_use r n 0 (B * a) (B * e)) w = Ok w' /\ length w' = len /\ at_block a w' = y /\ length y = B /\
      mix_use r n (map (fun i => le_string 4 (V i)) (seq 0 (N.to_nat n))) k (le_string 4 x) = le_string 4 y.
  Proof.
    revert w. induction k as [|k IH]; intros w i x L Ea Wx Fr Hd.
    - exists w, x. split; [reflexivity|]. split; [exact L|]. split; [exact Ea|]. split; [|reflexivity]. rewrite <- Ea. apply at_len; [exact L|lia].
    - assert (Lx : length x = B) by (rewrite <- Ea; apply at_len; [exact L|lia]). assert (Ia := block_in a ltac:(lia)). assert (PB : 16 < B) by (unfold B; lia).
      cbn [mfor]. unfold sc_use at 1. fold B. rewrite (get_ok w (B * a + B - 15) 0%N) by lia. rewrite (get_ok w (B * a + B - 16) 0%N) by lia. cbn [bind].
      assert (Eh : nth (B * a + B - 15) w 0%N = nth (B - 15) x 0%N) by (rewrite <- Ea; unfold at_block; rewrite nth_slice by lia; f_equal; lia).
      assert (El : nth (B * a + B - 16) w 0%N = nth (B - 16) x 0%N) by (rewrite <- Ea; unfold at_block; rewrite nth_slice by lia; f_equal; lia).
      rewrite Eh, El. clear Eh El. cbv zeta. rewrite (get_slice w (B * a) B) by lia. cbn [bind]. fold (at_block a w). rewrite Ea.
      assert (Et := integerify_words x Wx Lx). set (tn := integerify r (le_string 4 x) n) in *. rewrite <- Et.
      assert (Ht : tn < N.to_nat n).
      { assert (N0 : n <> 0%N) by (rewrite Hn; apply N.pow_nonzero; discriminate). unfold tn, integerify. assert (M := N.mod_lt (le_val (slice (64 * (2 * r - 1)) 64 (le_string 4 x))) n N0). lia. }
      cbn [mix_draws] in Hd. cbv zeta in Hd. fold tn in Hd. destruct (Hd tn (or_introl eq_refl)) as [Ta Te].
      cbn [Nat.add]. rewrite (get_slice w (B * tn) B) by (rewrite L; apply block_in; lia). cbn [bind]. fold (at_block tn w). rewrite (Fr tn Ht Ta Te).
      destruct (V_ok tn) as [Wv Lv]. rewrite xor_words_bytes. assert (Lxv : length (xor_bytes x (V tn)) = B) by (rewrite length_xor, Lx, Lv; apply Nat.min_id).
      destruct (put_at w a (xor_bytes x (V tn)) L ltac:(lia) Lxv) as (w2 & E2 & L2 & A2 & Fr2). rewrite E2. cbn [bind].
      assert (Wxv : words_ok 32 (xor_bytes x (V tn))) by (now apply xor_words_ok).
      destruct (mix_at w2 L2 ltac:(rewrite A2; exact Wxv)) as (w3 & E3 & L3 & A3 & Fr3). rewrite E3. cbn [bind]. rewrite A2 in A3.
      assert (Ev : nth tn (map (fun i => le_string 4 (V i)) (seq 0 (N.to_nat n))) [] = le_string 4 (V tn)) by (now rewrite nth_map_seq).
      assert (Em : block_mix r (xor_bytes (le_string 4 x) (nth tn (map (fun i => le_string 4 (V i)) (seq 0 (N.to_nat n))) [])) = le_string 4 (wmix r (xor_bytes x (V tn)))).
      { rewrite Ev, <- le_string_xor by congruence. now apply block_mix_words. }
      rewrite Em in Hd. destruct (wmix_ok r _ Hr Wxv Lxv) as [W3 L3'].
      destruct (IH w3 (S i) _ L3 A3 W3) as (w' & y & E & L' & A' & Ly & U).
      { intros j Hj Ja Je. rewrite Fr3 by lia. rewrite Fr2 by lia. now apply Fr. }
      { intros j Hj. apply Hd. now right. }
      exists w', y. split; [exact E|]. split; [exact L'|]. split; [exact A'|]. split; [exact Ly|]. cbn [mix_use]. fold tn. rewrite Em. exact U.
  Qed.
End Smix.

Theorem smix_ok r a e bits b w : 0 < r -> a <> e -> 32 * r * Nat.max (N.to_nat (2 ^ bits)) (Nat.max (S a) (S e)) <= length w -> (bits <= 64)%N ->
  bytes_ok b -> length b = 128 * r -> (forall j, In j (ro_draws r (2 ^ bits) b) -> j <> a /\ j <> e) ->
  exists w', sc_smix b r (2 ^ bits) 0 (32 * r * a) (32 * r * e) w = Ok (ro_mix r (2 ^ bits) b, w') /\ length w' = length w /\ length (ro_mix r (2 ^ bits) b) = 128 * r /\ bytes_ok (ro_mix r (2 ^ bits) b).
Proof.
  intros Hr Hae Hl Hb Bb Lb Hd. set (n := (2 ^ bits)%N) in *. set (X := le_words 4 (32 * r) b).
  assert (WX : words_ok 32 X) by (now apply le_words_ok). assert (LX : length X = 32 * r) by apply length_le_words.
  assert (Ex : le_string 4 X = b).
  { assert (Q : stores store32l (loads load32l 4 (32 * r) b) = b) by (apply (stores_loads codec32l); split; [lia|assumption]). rewrite loads32l_le, zero_pad_full, stores32l_le in Q by (try assumption; lia). exact Q. }
  unfold sc_smix. rewrite loads32l_le by (try assumption; lia). rewrite zero_pad_full by lia. fold X.
  destruct (put_at r a e n (length w) Hr Hae Hl w a X eq_refl ltac:(lia) LX) as (w0 & E0 & L0 & A0 & _). rewrite E0. cbn [bind].
  destruct (fill_ok r a e n (length w) Hr Hae Hl X WX LX w0 (N.to_nat n) L0 A0 (le_n _)) as (w1 & E1 & L1 & A1 & Fr1). rewrite E1. cbn [bind].
  assert (Sv := mix_save_words r Hr (N.to_nat n) X WX LX). rewrite Ex in Sv. unfold ro_draws in Hd. rewrite Sv in Hd. cbn [fst snd] in Hd.
  destruct (iter_wmix_ok r (N.to_nat n) X Hr WX LX) as [Wn Ln].
  destruct (use_ok r a e n (length w) Hr Hae Hl X WX LX bits eq_refl Hb w1 (N.to_nat n) 0 _ L1 A1 Wn Fr1 Hd) as (w2 & y & E2 & L2 & A2 & Ly & U).
  rewrite E2. cbn [bind]. rewrite get_slice by (rewrite L2; apply (block_in r a e n (length w) Hr Hae Hl); lia). cbn [bind]. fold (at_block r a w2). rewrite A2. exists w2.
  assert (Er : ro_mix r n b = le_string 4 y) by (unfold ro_mix; rewrite Sv; exact U). rewrite stores32l_le, Er. split; [reflexivity|]. split; [exact L2|]. split; [rewrite length_le_string; lia|apply bytes_le_string].
Qed.
