(** The Keccak stream ciphers output the sponge of key and IV. *)
From Coq Require Import NArith Arith List Bool Lia.
From Verif Require Import Lib.Word Lib.Res Lib.Bytes Lib.Lists Lib.Bij Lib.MemLemmas Lib.KeyStreamOp Model.Mem Spec.Words Spec.Modes Spec.Hash Spec.Keccak
  Model.HashApi Model.Keccak Model.KeccakStream Proof.MdP Proof.HashP Proof.KeccakCoreP Proof.KeccakP.
Import ListNotations.
Local Open Scope nat_scope.

(** any hash whose output is a stream *)
Section Generic.
  Variables (h : hash) (at_ : nat -> hs_st h -> Prop) (ks : nat -> N).
  Hypothesis Hout : forall i s k, at_ i s -> exists s', hash_output h s k = Ok (s', map ks (seq i k)) /\ at_ (i + k) s'.
  Definition mid (i : nat) (q : hs_st h * nat * list N * nat) : Prop :=
    let '(s, n, buf, todo) := q in
    n = 64 /\ at_ i s \/
    n < 64 /\ n <= i /\ (let c := Nat.min 64 (n + todo) in buf = map ks (seq (i - n) c) /\ at_ (i - n + c) s).
  Lemma step_mid i q b : mid i q -> 0 < snd q -> exists q', kst_step h q b = Ok (q', N.lxor b (ks i)) /\ mid (S i) q' /\ snd q' = snd q - 1.
  Proof.
    destruct q as [[[s n] buf] todo]. intros M L. cbn [snd] in L. unfold kst_step.
    assert (A : exists s1 n1 buf1, (if n =? 64 then let* p := hash_output h s (if todo <? 64 then todo else 64) in Ok (fst p, 0, snd p) else Ok (s, n, buf)) = Ok (s1, n1, buf1) /\
      n1 < 64 /\ n1 <= i /\ (let c := Nat.min 64 (n1 + todo) in buf1 = map ks (seq (i - n1) c) /\ at_ (i - n1 + c) s1)).
    { destruct M as [[-> M]|[Hn M]].
      - rewrite Nat.eqb_refl. destruct (Hout i s (if todo <? 64 then todo else 64) M) as (s1 & -> & A1). cbn [bind fst snd].
        exists s1, 0, (map ks (seq i (if todo <? 64 then todo else 64))). split; [reflexivity|]. split; [lia|]. split; [lia|].
        cbv zeta. rewrite Nat.sub_0_r. cbn [Nat.add]. assert (E : Nat.min 64 todo = if todo <? 64 then todo else 64) by (destruct (Nat.ltb_spec todo 64); lia).
        rewrite E. auto.
      - exists s, n, buf. rewrite (proj2 (Nat.eqb_neq _ _)) by lia. auto. }
    destruct A as (s1 & n1 & buf1 & -> & Hn1 & Hi & Eb & A1). cbn [bind].
    set (c := Nat.min 64 (n1 + todo)) in *.
    rewrite (get_ok _ n1 0%N) by (rewrite Eb, map_length, seq_length; lia). cbn [bind].
    assert (K : nth n1 buf1 0%N = ks i). { rewrite Eb, nth_map_seq by lia. f_equal. lia. }
    rewrite K. eexists. split; [reflexivity|]. split; [|reflexivity].
    cbn [mid]. destruct (Nat.eq_dec n1 63) as [->|Hne].
    - left. split; [reflexivity|]. assert (c = 64) by lia. now replace (S i) with (i - 63 + c) by lia.
    - right. split; [lia|]. split; [lia|]. cbv zeta. replace (S i - S n1) with (i - n1) by lia. replace (S n1 + (todo - 1)) with (n1 + todo) by lia. auto.
  Qed.
  Lemma run_mid l i q : mid i q -> snd q = length l -> exists q', brun (kst_step h) q l = Ok (q', xor_ks ks i l) /\ mid (i + length l) q' /\ snd q' = 0.
  Proof.
    revert i q. induction l as [|b l IH]; intros i q M L; [exists q; cbn [length] in *; rewrite Nat.add_0_r; auto|].
    cbn [length] in L. destruct (step_mid i q b M) as (q1 & E & M1 & L1); [lia|]. cbn [brun]. rewrite E. cbn [bind fst snd].
    destruct (IH (S i) q1 M1) as (q2 & E2 & M2 & L2); [lia|]. rewrite E2. cbn [bind fst snd xor_ks length]. exists q2.
    split; [reflexivity|]. rewrite <- plus_n_Sm. auto.
  Qed.
  Lemma crypt_gen i s m src dst len : at_ i s -> buffers_ok src dst len ->
    exists s' m', kst_crypt h s m src dst len = Ok (s', m') /\ at_ (i + len) s' /\ rd m' dst len = xor_ks ks i (rd m src len) /\ frame m m' dst len.
  Proof.
    intros A Hb. destruct (run_mid (rd m src len) i (s, 64, [], len)) as (q' & E & M & L); [left; auto|now rewrite length_rd|].
    destruct (bloop_run _ _ _ _ _ _ _ _ Hb E) as (m' & E' & R & F). unfold kst_crypt. rewrite E'. cbn [bind].
    destruct q' as [[[s' n] buf] todo]. cbn [snd] in L. subst todo. exists s', m'. split; [reflexivity|]. split; [|auto].
    rewrite length_rd in M. destruct M as [[_ M]|(Hn & Hi & _ & M)]; [exact M|]. cbv zeta in M. now replace (i + len - n + Nat.min 64 (n + 0)) with (i + len) in M by lia.
  Qed.
  Lemma prng_gen i s m dst len : at_ i s ->
    exists s' m', kst_prng h s m dst len = Ok (s', m') /\ at_ (i + len) s' /\ rd m' dst len = map ks (seq i len) /\ frame m m' dst len.
  Proof.
    intros A. destruct (Hout i s len A) as (s' & E & A'). unfold kst_prng. rewrite E. cbn [bind fst snd]. eexists _, _. split; [reflexivity|]. split; [exact A'|].
    assert (L : length (map ks (seq i len)) = len) by now rewrite map_length, seq_length.
    split; [now apply rd_wr'|]. intros x Hx. apply wr_out. now rewrite L.
  Qed.
End Generic.

Section Keccak.
  Variables (p : keccakp) (r : N) (f : list N -> list N) (maxkey : nat) (key iv : list N).
  Let size := 25 * kp_k p.
  Let r' := rounds_of (kp_r p) r.
  Let n := length key.
  Let rate := size - 2 * n.
  Hypothesis small : size < 1000.
  Hypothesis room : 2 * maxkey + 2 <= size.
  Hypothesis F : forall s, length s = size -> bytes_ok s -> kc_F p r' s = Ok (f s) /\ length (f s) = size /\ bytes_ok (f s).
  Hypothesis Hk : bytes_ok key.
  Hypothesis Hi : bytes_ok iv.
  Let h := kc_hash p.
  Let keccak_stream := sponge_stream f size key iv.
  Definition kst_at (i : nat) (s : keccak) : Prop :=
    2 * n + 2 <= size /\ (i = 0 /\ reading p r' f rate (key ++ iv) s \/ squeezed p r f n 1 (key ++ iv) i s).
  Lemma stream_slice i k cap : i + k <= cap -> firstn k (skipn i (sponge f size rate 1 cap (key ++ iv))) = map keccak_stream (seq i k).
  Proof.
    intros Hc. unfold sponge. rewrite (squeeze_slice p) by exact Hc. apply map_ext. intros j. unfold keccak_stream, sponge_stream, sponge, squeeze. now rewrite nth_map_seq by lia.
  Qed.
  Lemma kst_out i s k : kst_at i s -> exists s', hash_output h s k = Ok (s', map keccak_stream (seq i k)) /\ kst_at (i + k) s'.
  Proof.
    intros [R A]. assert (Hb : bytes_ok (key ++ iv)) by (apply Forall_app; auto).
    change (hash_output h s k) with (kc_output p s k).
    destruct A as [[-> A]|A].
    - destruct (out_first p r f n small R F 1 (key ++ iv) s k k eq_refl A Hb (le_n _)) as (s' & E & D). exists s'. unfold kc_output. rewrite E. split.
      + rewrite <- (stream_slice 0 k k (le_n _)). reflexivity.
      + split; [exact R|right; exact D].
    - destruct (out_next p r f n small R F 1 (key ++ iv) s i k (i + k) eq_refl A Hb (le_n _)) as (s' & E & D). exists s'. unfold kc_output. rewrite E. split.
      + rewrite <- (stream_slice i k (i + k) (le_n _)). reflexivity.
      + split; [exact R|right; exact D].
  Qed.
  Definition kst_started (s : keccak) : Prop := kst_create h maxkey r key iv = Ok s \/ exists s0, kst_recreate h maxkey s0 r key iv = Ok s.
  Lemma kst_args : kst_args_ok maxkey key iv = true -> 0 < n <= maxkey.
  Proof.
    unfold kst_args_ok. intros E. apply andb_prop in E. destruct E as [E _]. apply andb_prop in E. destruct E as [E1 E2].
    apply Nat.ltb_lt in E1. apply Nat.leb_le in E2. auto.
  Qed.
  Lemma kst_fed : n <= maxkey -> exists s, kst_feed h (kc_start p r n) key iv = Ok s /\ kst_at 0 s.
  Proof.
    intros Hn. assert (R : 2 * n + 2 <= size) by lia. assert (R2 : 2 <= rate <= size) by (unfold rate; lia).
    pose proof (start_reads p r f n small R) as S0.
    destruct (input_reads p r' f rate small R2 F key [] _ (Forall_nil _) Hk S0) as (s1 & E1 & R1).
    destruct (input_reads p r' f rate small R2 F iv key s1 Hk Hi R1) as (s2 & E2 & R3).
    exists s2. unfold kst_feed, hash_input. cbn [hs_input h kc_hash]. rewrite E1. cbn [bind]. rewrite E2. split; [reflexivity|]. split; [exact R|left; auto].
  Qed.
  Lemma started_at s : kst_started s -> kst_at 0 s.
  Proof.
    intros [E|[s0 E]]; unfold kst_create, kst_recreate in E; (destruct (kst_args_ok maxkey key iv) eqn:A; [|discriminate]); cbn [assert_] in E;
      apply kst_args in A; destruct (kst_fed (proj2 A)) as (s' & Es & K); fold n in E.
    - change (hash_create h r [] n) with (Ok (kc_start p r n)) in E. cbn [bind] in E. rewrite Es in E. apply Ok_inj in E. now subst.
    - change (hash_recreate h s0 r [] n) with (Ok (kc_start p r n)) in E. cbn [bind] in E. rewrite Es in E. apply Ok_inj in E. now subst.
  Qed.
  Lemma kst_create_total : 0 < n <= maxkey -> (N.of_nat (length iv) <= 4294967295)%N -> exists s, kst_create h maxkey r key iv = Ok s.
  Proof.
    intros Hn Hl. unfold kst_create, kst_args_ok. fold n. rewrite (proj2 (Nat.ltb_lt 0 n)), (proj2 (Nat.leb_le n maxkey)), (proj2 (N.leb_le _ _) Hl) by lia.
    cbn [andb assert_]. change (hash_create h r [] n) with (Ok (kc_start p r n)). cbn [bind]. destruct (kst_fed (proj2 Hn)) as (s & E & _). eauto.
  Qed.
  Lemma kst_session s0 inp s out : kst_started s0 -> session (kst_crypt h) s0 inp s out ->
    out = xor_ks keccak_stream 0 inp /\ call_safe (kst_crypt h) 1 s /\ gcall_safe (kst_prng h) s.
  Proof.
    intros H0 HS. apply started_at in H0. destruct (op_session _ _ _ (crypt_gen h kst_at keccak_stream kst_out) 0 s0 inp s out H0 HS) as [-> B].
    split; [reflexivity|]. split; [exact (op_safe _ _ _ (crypt_gen h kst_at keccak_stream kst_out) _ _ _ B)|exact (op_gsafe _ _ _ (prng_gen h kst_at keccak_stream kst_out) _ _ B)].
  Qed.
  Lemma kst_gsession s0 s out : kst_started s0 -> gsession (kst_prng h) s0 s out ->
    out = map keccak_stream (seq 0 (length out)) /\ call_safe (kst_crypt h) 1 s /\ gcall_safe (kst_prng h) s.
  Proof.
    intros H0 HS. apply started_at in H0. destruct (op_gsession _ _ _ (prng_gen h kst_at keccak_stream kst_out) 0 s0 s out H0 HS) as [E B].
    split; [exact E|]. split; [exact (op_safe _ _ _ (crypt_gen h kst_at keccak_stream kst_out) _ _ _ B)|exact (op_gsafe _ _ _ (prng_gen h kst_at keccak_stream kst_out) _ _ B)].
  Qed.
End Keccak.

Lemma stream1600_session r key iv s0 inp s out : (r <= 48)%N -> bytes_ok key -> bytes_ok iv -> kst_started keccak1600p r 99 key iv s0 -> session (kst_crypt hash_keccak1600) s0 inp s out ->
  out = xor_ks (sponge_stream (keccak_bytes 8 (round_constant 64) (N.to_nat (rounds_of 24 r))) 200 key iv) 0 inp /\ call_safe (kst_crypt hash_keccak1600) 1 s /\ gcall_safe (kst_prng hash_keccak1600) s.
Proof. intros Hr Hk Hi. refine (kst_session keccak1600p r _ 99 key iv _ _ (F1600_rounds r Hr) Hk Hi s0 inp s out); cbn [kp_k keccak1600p]; lia. Qed.
Lemma stream1600_gsession r key iv s0 s out : (r <= 48)%N -> bytes_ok key -> bytes_ok iv -> kst_started keccak1600p r 99 key iv s0 -> gsession (kst_prng hash_keccak1600) s0 s out ->
  out = map (sponge_stream (keccak_bytes 8 (round_constant 64) (N.to_nat (rounds_of 24 r))) 200 key iv) (seq 0 (length out)) /\ call_safe (kst_crypt hash_keccak1600) 1 s /\ gcall_safe (kst_prng hash_keccak1600) s.
Proof. intros Hr Hk Hi. refine (kst_gsession keccak1600p r _ 99 key iv _ _ (F1600_rounds r Hr) Hk Hi s0 s out); cbn [kp_k keccak1600p]; lia. Qed.
Lemma stream1600_create r key iv : (r <= 48)%N -> bytes_ok key -> bytes_ok iv -> 0 < length key <= 99 -> (N.of_nat (length iv) <= 4294967295)%N -> exists s, kst_create hash_keccak1600 99 r key iv = Ok s.
Proof. intros Hr Hk Hi. refine (kst_create_total keccak1600p r _ 99 key iv _ _ (F1600_rounds r Hr) Hk Hi); cbn [kp_k keccak1600p]; lia. Qed.
Lemma stream800_session r key iv s0 inp s out : (r <= 40)%N -> bytes_ok key -> bytes_ok iv -> kst_started keccak800p r 49 key iv s0 -> session (kst_crypt hash_keccak800) s0 inp s out ->
  out = xor_ks (sponge_stream (keccak_bytes 4 folded_constant (N.to_nat (rounds_of 20 r))) 100 key iv) 0 inp /\ call_safe (kst_crypt hash_keccak800) 1 s /\ gcall_safe (kst_prng hash_keccak800) s.
Proof. intros Hr Hk Hi. refine (kst_session keccak800p r _ 49 key iv _ _ (F800_rounds r Hr) Hk Hi s0 inp s out); cbn [kp_k keccak800p]; lia. Qed.
Lemma stream800_gsession r key iv s0 s out : (r <= 40)%N -> bytes_ok key -> bytes_ok iv -> kst_started keccak800p r 49 key iv s0 -> gsession (kst_prng hash_keccak800) s0 s out ->
  out = map (sponge_stream (keccak_bytes 4 folded_constant (N.to_nat (rounds_of 20 r))) 100 key iv) (seq 0 (length out)) /\ call_safe (kst_crypt hash_keccak800) 1 s /\ gcall_safe (kst_prng hash_keccak800) s.
Proof. intros Hr Hk Hi. refine (kst_gsession keccak800p r _ 49 key iv _ _ (F800_rounds r Hr) Hk Hi s0 s out); cbn [kp_k keccak800p]; lia. Qed.
Lemma stream800_create r key iv : (r <= 40)%N -> bytes_ok key -> bytes_ok iv -> 0 < length key <= 49 -> (N.of_nat (length iv) <= 4294967295)%N -> exists s, kst_create hash_keccak800 49 r key iv = Ok s.
Proof. intros Hr Hk Hi. refine (kst_create_total keccak800p r _ 49 key iv _ _ (F800_rounds r Hr) Hk Hi); cbn [kp_k keccak800p]; lia. Qed.

Lemma stream1600_roundtrip r key iv s0 s0' inp s out s' back : (r <= 48)%N -> bytes_ok key -> bytes_ok iv ->
  kst_started keccak1600p r 99 key iv s0 -> kst_started keccak1600p r 99 key iv s0' ->
  session (kst_crypt hash_keccak1600) s0 inp s out -> session (kst_crypt hash_keccak1600) s0' out s' back -> back = inp.
Proof.
  intros Hr Hk Hi H0 H0' HS HS'. destruct (stream1600_session r key iv s0 inp s out Hr Hk Hi H0 HS) as [-> _].
  destruct (stream1600_session r key iv s0' _ s' back Hr Hk Hi H0' HS') as [-> _]. apply xor_ks_invol.
Qed.
Lemma stream800_roundtrip r key iv s0 s0' inp s out s' back : (r <= 40)%N -> bytes_ok key -> bytes_ok iv ->
  kst_started keccak800p r 49 key iv s0 -> kst_started keccak800p r 49 key iv s0' ->
  session (kst_crypt hash_keccak800) s0 inp s out -> session (kst_crypt hash_keccak800) s0' out s' back -> back = inp.
Proof.
  intros Hr Hk Hi H0 H0' HS HS'. destruct (stream800_session r key iv s0 inp s out Hr Hk Hi H0 HS) as [-> _].
  destruct (stream800_session r key iv s0' _ s' back Hr Hk Hi H0' HS') as [-> _]. apply xor_ks_invol.
Qed.
