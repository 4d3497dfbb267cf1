(** keccak1600.c and keccak800.c compute the sponge. *)
From Coq Require Import NArith Arith List Bool Lia.
From Verif Require Import Lib.Word Lib.Res Lib.Bytes Lib.Lists Lib.Bij Spec.Words Spec.Modes Spec.Hash Spec.Keccak Model.HashApi Model.Keccak Proof.MdP Proof.HashP Proof.KeccakCoreP.
Import ListNotations.
Local Open Scope nat_scope.

Lemma N_of_nat_eqb a b : (N.of_nat a =? N.of_nat b)%N = (a =? b).
Proof. destruct (Nat.eqb_spec a b), (N.eqb_spec (N.of_nat a) (N.of_nat b)); try reflexivity; lia. Qed.
Lemma wsub_sub w a b : inw w a -> (b <= a)%N -> wsub w a b = (a - b)%N.
Proof.
  intros Ha Hb. unfold wsub. rewrite !mask_mod. unfold inw in Ha. rewrite (N.mod_small b) by lia.
  replace (a + 2 ^ w - b)%N with (a - b + 1 * 2 ^ w)%N by lia. rewrite N.mod_add by lia. apply N.mod_small. lia.
Qed.
Lemma length_xor_in S P : length (xor_in S P) = length S.
Proof. unfold xor_in. now rewrite map_length, seq_length. Qed.
Lemma nth_xor_in S P i : i < length S -> nth i (xor_in S P) 0%N = N.lxor (nth i S 0%N) (nth i P 0%N).
Proof. intros H. unfold xor_in. now rewrite nth_map_seq. Qed.
Lemma bytes_xor_in S P : bytes_ok S -> bytes_ok P -> bytes_ok (xor_in S P).
Proof.
  intros HS HP. apply Forall_forall. intros v Hv. apply in_map_iff in Hv. destruct Hv as (i & <- & _).
  change (inw 8 (N.lxor (nth i S 0%N) (nth i P 0%N))). apply inw_lxor; apply nth_inw; assumption.
Qed.
Lemma xor_in_nil S : xor_in S [] = S.
Proof.
  apply (nth_ext _ _ 0%N 0%N); [apply length_xor_in|]. intros i Hi. rewrite length_xor_in in Hi. rewrite nth_xor_in by exact Hi.
  destruct i; apply N.lxor_0_r.
Qed.
(** xoring one more byte *)
Lemma xor_in_upd S t v i : length t <= i -> i < length S ->
  upd (xor_in S t) i (N.lxor (nth i (xor_in S t) 0%N) v) = xor_in S (t ++ repeat 0%N (i - length t) ++ [v]).
Proof.
  intros Ht Hi. apply (nth_ext _ _ 0%N 0%N); [rewrite length_upd, !length_xor_in; reflexivity|].
  intros j Hj. rewrite length_upd, length_xor_in in Hj. rewrite (nth_xor_in S (t ++ _)) by exact Hj.
  destruct (Nat.eq_dec i j) as [<-|Hij].
  - rewrite nth_upd_eq by (rewrite length_xor_in; exact Hi). rewrite nth_xor_in by exact Hi.
    rewrite (nth_overflow t) by exact Ht. rewrite N.lxor_0_r, app_nth2, app_nth2 by (rewrite ?repeat_length; lia).
    rewrite repeat_length. now replace (i - length t - (i - length t)) with 0 by lia.
  - rewrite nth_upd_neq by exact Hij. rewrite nth_xor_in by exact Hj. f_equal.
    destruct (Nat.lt_ge_cases j (length t)); [now rewrite app_nth1|]. rewrite nth_overflow by assumption. rewrite app_nth2 by lia.
    destruct (Nat.lt_ge_cases (j - length t) (i - length t)); [rewrite app_nth1 by (rewrite repeat_length; lia); now rewrite nth_repeat|].
    rewrite nth_overflow; [reflexivity|]. rewrite app_length, repeat_length. cbn. lia.
Qed.
Lemma kc_xor_ok S t v i : length t <= i -> i < length S -> kc_xor (xor_in S t) i v = Ok (xor_in S (t ++ repeat 0%N (i - length t) ++ [v])).
Proof. intros Ht Hi. unfold kc_xor. rewrite length_xor_in, (proj2 (Nat.ltb_lt _ _) Hi). now rewrite xor_in_upd. Qed.
Lemma kc_xor_last S t v : length t < length S -> kc_xor (xor_in S t) (length t) v = Ok (xor_in S (t ++ [v])).
Proof. intros H. rewrite kc_xor_ok by lia. now rewrite Nat.sub_diag. Qed.

Section Sponge.
  Variables (p : keccakp) (r : N) (f : list N -> list N) (rate : nat) (dom : N).
  Let size := 25 * kp_k p.
  Hypothesis small : size < 1000.
  Hypothesis rate2 : 2 <= rate <= size.
  Hypothesis F : forall s, length s = size -> bytes_ok s -> kc_F p r s = Ok (f s) /\ length (f s) = size /\ bytes_ok (f s).
  Let st i o s : keccak := {| kc_r := r; kc_rate := N.of_nat rate; kc_i := i; kc_o := o; kc_s := s |}.
  Let S0 l := absorb f rate (repeat 0%N size) l.
  Definition state_ok (s : list N) : Prop := length s = size /\ bytes_ok s.

  Lemma zeros_state : state_ok (repeat 0%N size).
  Proof. split; [apply repeat_length|]. apply Forall_forall. intros x Hx. apply repeat_spec in Hx. now subst. Qed.
  Lemma f_state s : state_ok s -> state_ok (f s).
  Proof. intros [L B]. now apply F. Qed.
  Lemma xor_state s P : state_ok s -> bytes_ok P -> state_ok (xor_in s P).
  Proof. intros [L B] HP. split; [now rewrite length_xor_in|now apply bytes_xor_in]. Qed.
  Lemma S0_state l : bytes_ok l -> state_ok (S0 l).
  Proof.
    intros Hl. unfold S0, absorb, blocks. generalize (length l / rate) as n. intros n. induction n as [|n IH]; [exact zeros_state|].
    rewrite seq_S, map_app, fold_left_app. cbn [map fold_left]. apply f_state, xor_state; [exact IH|]. now apply bytes_slice.
  Qed.
  Lemma S0_snoc l b : length l mod rate = 0 -> length b = rate -> S0 (l ++ b) = f (xor_in (S0 l) b).
  Proof. intros Hl Hb. unfold S0. change absorb with (fun f rate S P => iterate rate (fun S B => f (xor_in S B)) S P). cbv beta. apply iterate_snoc; [lia|assumption..]. Qed.
  Lemma perm_ok i o s : state_ok s -> kc_perm p (st i o s) = Ok (st 0 o (f s)).
  Proof. intros [L B]. unfold kc_perm, st. cbn [kc_r kc_s kc_rate kc_o]. now rewrite (proj1 (F s L B)). Qed.

  Definition reading (msg : list N) (s : keccak) : Prop :=
    exists l t, msg = l ++ t /\ length l mod rate = 0 /\ length t < rate /\ s = st (length t) false (xor_in (S0 l) t).
  Lemma byte_reads msg s b : bytes_ok msg -> (b < 256)%N -> reading msg s -> exists s', kc_byte p s b = Ok s' /\ reading (msg ++ [b]) s'.
  Proof.
    intros Hm Hb (l & t & -> & Hl & Ht & ->). apply Forall_app in Hm. destruct Hm as [Bl Bt].
    assert (Hs : state_ok (S0 l)) by now apply S0_state.
    unfold kc_byte, st. cbn [kc_r kc_s kc_rate kc_o kc_i]. rewrite kc_xor_last by (destruct Hs; lia). cbn [bind kc_i kc_rate].
    rewrite N_of_nat_eqb. destruct (Nat.eqb_spec (Datatypes.S (length t)) rate) as [E|E].
    - change {| kc_r := r; kc_rate := N.of_nat rate; kc_i := Datatypes.S (length t); kc_o := false; kc_s := xor_in (S0 l) (t ++ [b]) |}
        with (st (Datatypes.S (length t)) false (xor_in (S0 l) (t ++ [b]))).
      rewrite perm_ok by (apply xor_state; [exact Hs|apply Forall_app; split; [exact Bt|repeat constructor; exact Hb]]).
      eexists. split; [reflexivity|]. exists (l ++ t ++ [b]), []. rewrite app_nil_r, app_assoc. split; [reflexivity|].
      assert (Lb : length (t ++ [b]) = rate) by (rewrite app_length; cbn; lia).
      rewrite <- app_assoc. split; [rewrite app_length, Lb, <- Nat.add_mod_idemp_r, Nat.mod_same, Nat.add_0_r by lia; exact Hl|].
      split; [cbn; lia|]. rewrite xor_in_nil, S0_snoc by assumption. reflexivity.
    - eexists. split; [reflexivity|]. exists l, (t ++ [b]). rewrite app_assoc. split; [reflexivity|]. split; [exact Hl|].
      rewrite app_length. cbn [length]. split; [lia|]. now rewrite Nat.add_1_r.
  Qed.
  Lemma bytes_read l msg s : bytes_ok msg -> bytes_ok l -> reading msg s -> exists s', kc_bytes p s l = Ok s' /\ reading (msg ++ l) s'.
  Proof.
    revert msg s. induction l as [|b l IH]; intros msg s Hm Hl R; [exists s; rewrite app_nil_r; auto|].
    inversion Hl; subst. destruct (byte_reads msg s b) as (s1 & E & R1); [assumption..|]. cbn [kc_bytes]. rewrite E. cbn [bind].
    destruct (IH (msg ++ [b]) s1) as (s2 & E2 & R2); [apply Forall_app; split; [assumption|repeat constructor; assumption]|assumption..|].
    exists s2. split; [exact E2|]. now rewrite <- app_assoc in R2.
  Qed.
  Lemma input_reads l msg s : bytes_ok msg -> bytes_ok l -> reading msg s -> exists s', kc_input p s l = Ok s' /\ reading (msg ++ l) s'.
  Proof.
    intros Hm Hl R. pose proof R as (l' & t & _ & _ & _ & Es). unfold kc_input. replace (kc_o s) with false by (rewrite Es; reflexivity).
    now apply bytes_read.
  Qed.

  Let pad := keccak_pad rate dom.
  Lemma pad_split l t : (dom < 0x80)%N -> length l mod rate = 0 -> length t < rate ->
    exists u, pad (l ++ t) = l ++ (t ++ u) /\ length (t ++ u) = rate /\ (bytes_ok t -> bytes_ok (t ++ u)) /\
    forall s, state_ok s -> bytes_ok t ->
      (let* q := kc_xor (xor_in s t) (length t) dom in kc_xor q (rate - 1) 0x80) = Ok (xor_in s (t ++ u)).
  Proof.
    intros domb Hl Ht. assert (M : length (l ++ t) mod rate = length t).
    { rewrite app_length, <- Nat.add_mod_idemp_l, Hl by lia. now apply Nat.mod_small. }
    unfold pad, keccak_pad. rewrite M. cbv zeta.
    assert (D : N.lxor dom 128 = (dom + 128)%N).
    { clear - domb. assert (Z : N.land dom 128 = 0%N).
      { apply N.bits_inj_0. intros i. rewrite N.land_spec. change 128%N with (2 ^ 7)%N. rewrite N.pow2_bits_eqb. destruct (N.eqb_spec 7 i) as [<-|]; [|apply andb_false_r].
        rewrite andb_true_r. destruct (N.eq_dec dom 0) as [->|]; [reflexivity|]. apply N.bits_above_log2. apply N.log2_lt_pow2; [lia|exact domb]. }
      rewrite N.add_nocarry_lxor by exact Z. reflexivity. }
    destruct (Nat.eqb_spec (rate - length t) 1) as [E|E].
    - exists [(dom + 128)%N]. rewrite app_assoc. split; [reflexivity|]. split; [rewrite app_length; cbn; lia|].
      split; [intros Hb; apply Forall_app; split; [exact Hb|repeat constructor; lia]|].
      intros s [Ls Bs] _. rewrite kc_xor_last by lia. cbn [bind]. unfold kc_xor. rewrite length_xor_in, (proj2 (Nat.ltb_lt _ _)) by lia.
      f_equal. apply (nth_ext _ _ 0%N 0%N); [rewrite length_upd, !length_xor_in; reflexivity|]. intros j Hj. rewrite length_upd, length_xor_in in Hj.
      rewrite (nth_xor_in s (t ++ [(dom + 128)%N])) by exact Hj. destruct (Nat.eq_dec (rate - 1) j) as [<-|Hij].
      + rewrite nth_upd_eq by (rewrite length_xor_in; exact Hj). rewrite nth_xor_in by exact Hj. rewrite !app_nth2 by lia.
        replace (rate - 1 - length t) with 0 by lia. cbn [nth]. now rewrite N.lxor_assoc, D.
      + rewrite nth_upd_neq by exact Hij. rewrite nth_xor_in by exact Hj. f_equal.
        destruct (Nat.lt_ge_cases j (length t)); [now rewrite !app_nth1|]. rewrite !nth_overflow; [reflexivity|rewrite app_length; cbn; lia..].
    - exists (dom :: repeat 0%N (rate - length t - 2) ++ [128%N]). rewrite app_assoc. split; [reflexivity|].
      split; [rewrite app_length; cbn [length]; rewrite app_length, repeat_length; cbn; lia|].
      split. { intros Hb. apply Forall_app. split; [exact Hb|]. constructor; [lia|]. apply Forall_app. split; [|repeat constructor].
        apply Forall_forall. intros x Hx. apply repeat_spec in Hx. now subst. }
      intros s [Ls Bs] _. rewrite kc_xor_last by lia. cbn [bind]. rewrite kc_xor_ok by (rewrite ?app_length; cbn; lia).
      f_equal. f_equal. rewrite <- app_assoc. cbn [app]. rewrite app_length. cbn [length]. now replace (rate - 1 - (length t + 1)) with (rate - length t - 2) by lia.
  Qed.
  Lemma finish_ok msg s : (dom < 0x80)%N -> bytes_ok msg -> reading msg s -> kc_finish p dom s = Ok (st 0 true (S0 (pad msg))) /\ state_ok (S0 (pad msg)).
  Proof.
    intros domb Hm (l & t & -> & Hl & Ht & ->). apply Forall_app in Hm. destruct Hm as [Bl Bt].
    assert (Hs : state_ok (S0 l)) by now apply S0_state.
    destruct (pad_split l t domb Hl Ht) as (u & Ep & Lu & Bu & X). specialize (X (S0 l) Hs Bt).
    rewrite Ep, S0_snoc by assumption.
    assert (Hx : state_ok (xor_in (S0 l) (t ++ u))) by (apply xor_state; [exact Hs|auto]).
    split; [|now apply f_state].
    unfold kc_finish, st. cbn [kc_r kc_s kc_rate kc_o kc_i].
    destruct (kc_xor (xor_in (S0 l) t) (length t) dom) as [q|e]; [|discriminate X]. cbn [bind] in X |- *.
    assert (W : wsub 32 (N.of_nat rate) 1 = N.of_nat (rate - 1)).
    { assert (Q : (N.of_nat rate < 1000 /\ 2 <= N.of_nat rate)%N) by lia. rewrite wsub_sub; [lia| |lia]. unfold inw. change (2 ^ 32)%N with 4294967296%N. lia. }
    rewrite W. change (25 * kp_k p) with size. rewrite (proj2 (N.ltb_lt _ _)) by lia. rewrite Nat2N.id, X. cbn [bind].
    destruct Hx as [L B]. now rewrite (proj1 (F _ L B)).
  Qed.

  (** reading the output *)
  Let out S i := nth (i mod rate) (Nat.iter (i / rate) f S) 0%N.
  Lemma iter_state S j : state_ok S -> state_ok (Nat.iter j f S).
  Proof. intros H. induction j; [exact H|]. now apply f_state. Qed.
  Lemma squeeze_ok S len j i : state_ok S -> i <= rate -> exists j' i', i' <= rate /\ j' * rate + i' = j * rate + i + len /\
    kc_squeeze p (st i true (Nat.iter j f S)) len = Ok (st i' true (Nat.iter j' f S), map (out S) (seq (j * rate + i) len)).
  Proof.
    intros HS. revert j i. induction len as [|len IH]; intros j i Hi; [exists j, i; rewrite Nat.add_0_r; auto|].
    cbn [kc_squeeze]. unfold st. cbn [kc_rate kc_i]. rewrite N_of_nat_eqb.
    assert (A : exists j1 i1, i1 < rate /\ j1 * rate + i1 = j * rate + i /\
      (if i =? rate then kc_perm p (st i true (Nat.iter j f S)) else Ok (st i true (Nat.iter j f S))) = Ok (st i1 true (Nat.iter j1 f S))).
    { destruct (Nat.eqb_spec i rate) as [->|E].
      - exists (Datatypes.S j), 0. split; [lia|]. split; [lia|]. rewrite perm_ok by now apply iter_state. reflexivity.
      - exists j, i. split; [lia|]. auto. }
    destruct A as (j1 & i1 & Hi1 & Ej & A). unfold st in A. rewrite A. cbn [bind kc_s kc_i kc_r kc_rate kc_o].
    destruct (iter_state S j1 HS) as [L1 B1]. rewrite (get_ok _ i1 0%N) by lia. cbn [bind].
    destruct (IH j1 (Datatypes.S i1)) as (j2 & i2 & Hi2 & E2 & Q); [lia|]. unfold st in Q. rewrite Q. cbn [bind fst snd].
    exists j2, i2. split; [exact Hi2|]. split; [lia|]. cbn [seq map]. rewrite <- Ej. replace (j1 * rate + Datatypes.S i1) with (Datatypes.S (j1 * rate + i1)) by lia.
    do 2 f_equal. f_equal. unfold out. rewrite (Nat.add_comm (j1 * rate)), Nat.mod_add, Nat.div_add, Nat.mod_small, Nat.div_small by lia. reflexivity.
  Qed.
  Lemma read_ok S len i : state_ok S -> i + len <= rate -> kc_read (st i true S) len = Ok (st (i + len) true S, map (out S) (seq i len)).
  Proof.
    intros [L B]. revert i. induction len as [|len IH]; intros i Hi; [now rewrite Nat.add_0_r|].
    cbn [kc_read]. unfold st. cbn [kc_s kc_i kc_r kc_rate kc_o]. rewrite (get_ok _ i 0%N) by lia. cbn [bind].
    specialize (IH (Datatypes.S i)). unfold st in IH. rewrite IH by lia. cbn [bind fst snd seq map]. replace (i + Datatypes.S len) with (Datatypes.S i + len) by lia.
    do 2 f_equal. f_equal. unfold out. rewrite Nat.mod_small, Nat.div_small by lia. reflexivity.
  Qed.
  Lemma squeeze_slice i k cap S : i + k <= cap -> firstn k (skipn i (squeeze f rate cap S)) = map (out S) (seq i k).
  Proof.
    clear small rate2 F. intros H. unfold squeeze. change (fun i => nth (i mod rate) (Nat.iter (i / rate) f S) 0%N) with (out S).
    rewrite skipn_map, firstn_map. f_equal. replace cap with (i + (k + (cap - i - k))) by lia. rewrite seq_app, skipn_app, seq_length, Nat.sub_diag.
    rewrite skipn_all2 by (rewrite seq_length; lia). cbn [app skipn Nat.add]. rewrite seq_app, firstn_app, seq_length, Nat.sub_diag, firstn_O, app_nil_r.
    apply firstn_all2. rewrite seq_length. lia.
  Qed.
End Sponge.

Lemma pad_bytes rate dom m : (dom < 128)%N -> bytes_ok m -> bytes_ok (keccak_pad rate dom m).
Proof.
  intros Hd Hm. unfold keccak_pad. cbv zeta. apply Forall_app. split; [exact Hm|]. destruct (_ =? 1).
  - constructor; [lia|constructor].
  - constructor; [lia|]. apply Forall_app. split; [|repeat constructor]. apply Forall_forall. intros x Hx. apply repeat_spec in Hx. now subst.
Qed.
Definition rounds_of (dflt r : N) : N := if (r =? 0)%N then dflt else r.
Lemma rate_ok size n : size < 1000 -> 2 * n <= size -> wsub 32 (N.of_nat size) (wshl 32 (mask 32 (N.of_nat n)) 1) = N.of_nat (size - 2 * n).
Proof.
  intros Hs Hn. assert (Q : (N.of_nat size < 1000)%N) by lia. assert (W : (2 ^ 32 = 4294967296)%N) by reflexivity.
  rewrite mask_id by (unfold inw; rewrite W; lia).
  unfold wshl. rewrite N.shiftl_mul_pow2. change (2 ^ 1)%N with 2%N. rewrite mask_id by (unfold inw; rewrite W; lia).
  rewrite wsub_sub; [lia|unfold inw; rewrite W; lia|lia].
Qed.

Section Hash.
  Variables (p : keccakp) (r : N) (f : list N -> list N) (n : nat).
  Let size := 25 * kp_k p.
  Let r' := rounds_of (kp_r p) r.
  Let rate := size - 2 * n.
  Hypothesis small : size < 1000.
  Hypothesis rate2 : 2 * n + 2 <= size.
  Hypothesis F : forall s, length s = size -> bytes_ok s -> kc_F p r' s = Ok (f s) /\ length (f s) = size /\ bytes_ok (f s).
  Let st i o s : keccak := {| kc_r := r'; kc_rate := N.of_nat rate; kc_i := i; kc_o := o; kc_s := s |}.
  Lemma start_ok : kc_start p r n = st 0 false (repeat 0%N size).
  Proof. clear F. unfold kc_start. fold size. rewrite rate_ok by lia. reflexivity. Qed.
  Lemma start_reads : reading p r' f rate [] (kc_start p r n).
  Proof.
    rewrite start_ok. exists [], []. split; [reflexivity|]. split; [apply Nat.mod_0_l; lia|]. split; [cbn; lia|].
    rewrite xor_in_nil. unfold absorb, blocks. cbn [length]. rewrite Nat.div_0_l by lia. reflexivity.
  Qed.
  Definition squeezed (dom : N) (msg : list N) (i : nat) (s : keccak) : Prop :=
    exists j i', i' <= rate /\ j * rate + i' = i /\ s = st i' true (Nat.iter j f (absorb f rate (repeat 0%N size) (keccak_pad rate dom msg))).
  Lemma out_first dom msg s k cap : (dom < 128)%N -> reading p r' f rate msg s -> bytes_ok msg -> k <= cap ->
    exists s', (let* s := if kc_o s then Ok s else kc_finish p dom s in kc_squeeze p s k) = Ok (s', firstn k (sponge f size rate dom cap msg)) /\ squeezed dom msg k s'.
  Proof.
    intros Hd R Hm Hk. replace (kc_o s) with false by (destruct R as (l & t & _ & _ & _ & ->); reflexivity).
    destruct (finish_ok p r' f rate dom small ltac:(lia) F msg s Hd Hm R) as [-> HS]. cbn [bind].
    destruct (squeeze_ok p r' f rate small ltac:(lia) F _ k 0 0 HS ltac:(lia)) as (j & i & Hi & E & Q).
    change (0 * rate + 0) with 0 in Q. cbn [Nat.iter nat_rect] in Q. rewrite Q. eexists. split; [|exists j, i; split; [exact Hi|]; split; [exact E|reflexivity]].
    do 2 f_equal. unfold sponge. symmetry. exact (squeeze_slice p f rate 0 k cap _ Hk).
  Qed.
  Lemma out_next dom msg s i k cap : (dom < 128)%N -> squeezed dom msg i s -> bytes_ok msg -> i + k <= cap ->
    exists s', (let* s := if kc_o s then Ok s else kc_finish p dom s in kc_squeeze p s k) = Ok (s', firstn k (skipn i (sponge f size rate dom cap msg))) /\ squeezed dom msg (i + k) s'.
  Proof.
    intros Hd (j & i' & Hi & <- & ->) Hm Hk. cbn [kc_o st bind].
    assert (HS : state_ok p (absorb f rate (repeat 0%N size) (keccak_pad rate dom msg))).
    { apply (S0_state p r' f rate F). now apply pad_bytes. }
    destruct (squeeze_ok p r' f rate small ltac:(lia) F _ k j i' HS Hi) as (j2 & i2 & Hi2 & E & Q).
    unfold st. rewrite Q. eexists. split; [|exists j2, i2; split; [exact Hi2|]; split; [exact E|reflexivity]].
    do 2 f_equal. unfold sponge. symmetry. now apply squeeze_slice.
  Qed.
  Lemma keccak_computes cap : n <= cap -> computes (kc_hash p) r [] n cap (fun _ => True) (sponge f size rate 1 cap).
  Proof.
    intros Hn. apply (computes_intro (kc_hash p) r [] n cap (fun _ => True) (sponge f size rate 1 cap) (reading p r' f rate) (squeezed 1)).
    - reflexivity.
    - exact Hn.
    - left. reflexivity.
    - auto.
    - eexists. split; [reflexivity|exact start_reads].
    - intros s. eexists. split; [reflexivity|exact start_reads].
    - intros msg s l R Hm Hl _. exact (input_reads p r' f rate small ltac:(lia) F l msg s Hm Hl R).
    - intros msg s k R Hm _ Hk. exact (out_first 1 msg s k cap eq_refl R Hm Hk).
    - intros msg i s k D Hm Hk. exact (out_next 1 msg s i k cap eq_refl D Hm Hk).
    - intros l Hl _. cbn [hs_all kc_hash]. destruct (input_reads p r' f rate small ltac:(lia) F l [] _ (Forall_nil _) Hl start_reads) as (s1 & -> & R1).
      cbn [bind app] in *. destruct (out_first 1 l s1 n cap eq_refl R1 Hl Hn) as (s2 & E & _). unfold kc_output. rewrite E. reflexivity.
  Qed.
  (** SHA-3: the digest is read from one block *)
  Definition read_from (msg : list N) (i : nat) (s : keccak) : Prop := s = st i true (absorb f rate (repeat 0%N size) (keccak_pad rate 6 msg)).
  Lemma read_first msg s k cap : reading p r' f rate msg s -> bytes_ok msg -> k <= cap -> cap <= rate ->
    exists s', sha3_output p s k = Ok (s', firstn k (sponge f size rate 6 cap msg)) /\ read_from msg k s'.
  Proof.
    intros R Hm Hk Hc. unfold sha3_output. replace (kc_o s) with false by (destruct R as (l & t & _ & _ & _ & ->); reflexivity).
    destruct (finish_ok p r' f rate 6 small ltac:(lia) F msg s eq_refl Hm R) as [-> HS]. cbn [bind].
    rewrite (read_ok p r' f rate small ltac:(lia) _ k 0 HS ltac:(lia)). eexists. split; [|reflexivity].
    do 2 f_equal. unfold sponge. symmetry. exact (squeeze_slice p f rate 0 k cap _ Hk).
  Qed.
  Lemma read_next msg s i k cap : read_from msg i s -> bytes_ok msg -> i + k <= cap -> cap <= rate ->
    exists s', sha3_output p s k = Ok (s', firstn k (skipn i (sponge f size rate 6 cap msg))) /\ read_from msg (i + k) s'.
  Proof.
    intros -> Hm Hk Hc. unfold sha3_output. cbn [kc_o st bind].
    assert (HS : state_ok p (absorb f rate (repeat 0%N size) (keccak_pad rate 6 msg))).
    { apply (S0_state p r' f rate F). now apply pad_bytes. }
    unfold st. rewrite (read_ok p r' f rate small ltac:(lia) _ k i HS ltac:(lia)). eexists. split; [|reflexivity].
    do 2 f_equal. unfold sponge. symmetry. now apply squeeze_slice.
  Qed.
End Hash.

Lemma F1600_rounds r : (r <= 48)%N -> forall s, length s = 25 * kp_k keccak1600p -> bytes_ok s ->
  let f := keccak_bytes 8 (round_constant 64) (N.to_nat (rounds_of 24 r)) in
  kc_F keccak1600p (rounds_of 24 r) s = Ok (f s) /\ length (f s) = 25 * kp_k keccak1600p /\ bytes_ok (f s).
Proof. intros Hr s L B. apply F1600; [exact L|exact B|]. unfold rounds_of. destruct (r =? 0)%N; lia. Qed.
Lemma F800_rounds r : (r <= 40)%N -> forall s, length s = 25 * kp_k keccak800p -> bytes_ok s ->
  let f := keccak_bytes 4 folded_constant (N.to_nat (rounds_of 20 r)) in
  kc_F keccak800p (rounds_of 20 r) s = Ok (f s) /\ length (f s) = 25 * kp_k keccak800p /\ bytes_ok (f s).
Proof. intros Hr s L B. apply F800; [exact L|exact B|]. unfold rounds_of. destruct (r =? 0)%N; lia. Qed.

Theorem keccak1600_computes r n cap : (r <= 48)%N -> n < 100 -> n <= cap ->
  computes hash_keccak1600 r [] n cap (fun _ => True) (sponge (keccak_bytes 8 (round_constant 64) (N.to_nat (rounds_of 24 r))) 200 (200 - 2 * n) 1 cap).
Proof. intros Hr Hn Hc. refine (keccak_computes keccak1600p r _ n _ _ (F1600_rounds r Hr) cap Hc); cbn [kp_k keccak1600p]; lia. Qed.
Theorem keccak800_computes r n cap : (r <= 40)%N -> n < 50 -> n <= cap ->
  computes hash_keccak800 r [] n cap (fun _ => True) (sponge (keccak_bytes 4 folded_constant (N.to_nat (rounds_of 20 r))) 100 (100 - 2 * n) 1 cap).
Proof. intros Hr Hn Hc. refine (keccak_computes keccak800p r _ n _ _ (F800_rounds r Hr) cap Hc); cbn [kp_k keccak800p]; lia. Qed.
Theorem sha3_computes r n : (r <= 48)%N -> n <= 64 ->
  computes hash_sha3 r [] n 64 (fun _ => True) (sponge (keccak_bytes 8 (round_constant 64) (N.to_nat (rounds_of 24 r))) 200 (200 - 2 * n) 6 64).
Proof.
  intros Hr Hn. set (f := keccak_bytes 8 (round_constant 64) (N.to_nat (rounds_of 24 r))). set (rate := 200 - 2 * n).
  pose proof (F1600_rounds r Hr : forall s, length s = 25 * kp_k keccak1600p -> bytes_ok s -> kc_F keccak1600p (rounds_of 24 r) s = Ok (f s) /\ length (f s) = 25 * kp_k keccak1600p /\ bytes_ok (f s)) as F.
  assert (A : 25 * kp_k keccak1600p < 1000) by (cbn [kp_k keccak1600p]; lia).
  assert (B : 2 * n + 2 <= 25 * kp_k keccak1600p) by (cbn [kp_k keccak1600p]; lia).
  assert (C : 2 <= rate <= 25 * kp_k keccak1600p) by (unfold rate; cbn [kp_k keccak1600p]; lia).
  pose proof (start_reads keccak1600p r f n A B) as R0. change (rounds_of (kp_r keccak1600p) r) with (rounds_of 24 r) in R0. change (25 * kp_k keccak1600p - 2 * n) with rate in R0.
  apply (computes_intro hash_sha3 r [] n 64 (fun _ => True) (sponge f 200 rate 6 64) (reading keccak1600p (rounds_of 24 r) f rate) (read_from keccak1600p r f n)).
  - unfold hash_args_ok. cbn [hs_maxsalt hs_maxout hash_sha3 length]. apply orb_true_intro. right. now apply Nat.leb_le.
  - exact Hn.
  - right. apply le_n.
  - auto.
  - eexists. split; [reflexivity|exact R0].
  - intros s. eexists. split; [reflexivity|exact R0].
  - intros msg s l R Hm Hl _. exact (input_reads keccak1600p (rounds_of 24 r) f rate A C F l msg s Hm Hl R).
  - intros msg s k R Hm _ Hk. apply (read_first keccak1600p r f n A B F msg s k 64 R Hm Hk). cbn [kp_k keccak1600p]. lia.
  - intros msg i s k D Hm Hk. apply (read_next keccak1600p r f n A B F msg s i k 64 D Hm Hk). cbn [kp_k keccak1600p]. lia.
  - intros l Hl _. cbn [hs_all hash_sha3]. destruct (input_reads keccak1600p (rounds_of 24 r) f rate A C F l [] _ (Forall_nil _) Hl R0) as (s1 & -> & R1).
    cbn [bind app] in *. destruct (read_first keccak1600p r f n A B F l s1 n 64 R1 Hl Hn) as (s2 & E & _); [cbn [kp_k keccak1600p]; lia|]. now rewrite E.
Qed.
Theorem sha3_digest n m : n <= 64 -> bytes_ok m -> hash_all hash_sha3 0 [] m n = Ok (sha3 n m).
Proof.
  intros Hn Hm. destruct (sha3_computes 0 n (N.le_0_l 48) Hn [m] (Forall_cons _ Hm (Forall_nil _)) I) as [_ E].
  cbn [concat] in E. rewrite app_nil_r in E. rewrite E. f_equal. unfold sha3, sponge.
  change (firstn n) with (fun l : list N => firstn n (skipn 0 l)). cbv beta. rewrite (squeeze_slice keccak1600p) by lia. reflexivity.
Qed.
