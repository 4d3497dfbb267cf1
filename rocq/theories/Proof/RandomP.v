(** Model/Random.v: when seeds are renewed, and what comes out. *)
From Coq Require Import NArith ZArith Arith List Bool Lia.
From Verif Require Import Lib.Res Lib.Bytes Lib.MemLemmas Spec.Modes Spec.Chacha Spec.Random Model.Mem Model.Modes Model.Chacha Model.Random Proof.ChachaP Proof.DigestsP Proof.EaxP.
Import ListNotations.
Local Open Scope nat_scope.

Lemma gsession_app {S} (op : S -> mem -> nat -> nat -> res (S * mem)) a b c x y : gsession op a b x -> gsession op b c y -> gsession op a c (x ++ y).
Proof. intros H; revert c y; induction H; intros c y Hy; [exact Hy|]. rewrite <- app_assoc. econstructor; [eassumption|]. now apply IHgsession. Qed.
(** ChaCha20 at byte [i] of its stream *)
Definition at_byte (k iv : list N) (i : nat) (st : chacha) : Prop :=
  exists s0 out, chacha_started 0 k iv s0 /\ gsession chacha_prng s0 st out /\ length out = i.
Lemma room8 iv : length iv <= 8 -> chacha_room iv = (2 ^ 70 - 64)%N.
Proof. intros H. unfold chacha_room. destruct (Nat.ltb_spec 8 (length iv)); [lia|reflexivity]. Qed.
Lemma at_byte_gen k iv i st m dst n : at_byte k iv i st -> bytes_ok k -> bytes_ok iv -> length iv <= 8 -> (N.of_nat (i + n) <= 2 ^ 70 - 64)%N ->
  exists st' m', chacha_prng st m dst n = Ok (st', m') /\ rd m' dst n = chacha20 k iv i n /\ at_byte k iv (i + n) st' /\ frame m m' dst n.
Proof.
  intros (s0 & out & H0 & G & L) Hk Hi Li Hn. destruct (chacha_gsafe_room 0 k iv s0 st out n Hk Hi H0 G) as [_ S].
  { rewrite room8 by exact Li. now rewrite L. }
  destruct (S m dst n (le_n n)) as (st' & m' & E & F). exists st', m'. split; [exact E|].
  assert (G' : gsession chacha_prng s0 st' (out ++ rd m' dst n)).
  { apply (gsession_app _ _ _ _ _ _ G). rewrite <- (app_nil_r (rd m' dst n)). econstructor; [exact E|]. constructor. }
  assert (L' : length (out ++ rd m' dst n) = i + n) by (rewrite app_length, length_rd; lia).
  split; [|split; [|exact F]].
  - assert (W : forall l, chacha_within iv l) by (intros l Hl; lia).
    pose proof (chacha_gsession 0 k iv s0 st' _ Hk Hi H0 G' (W _)) as E2. pose proof (chacha_gsession 0 k iv s0 st _ Hk Hi H0 G (W _)) as E1.
    rewrite L', seq_app, map_app, Nat.add_0_l in E2. rewrite L in E1. rewrite <- E1 in E2. apply app_inv_head in E2. exact E2.
  - exists s0, (out ++ rd m' dst n). auto.
Qed.
Lemma chacha20_length k iv i n : length (chacha20 k iv i n) = n.
Proof. unfold chacha20. now rewrite map_length, seq_length. Qed.
Lemma chacha20_bytes k iv i n : bytes_ok (chacha20 k iv i n).
Proof.
  unfold chacha20, bytes_ok. apply Forall_map, Forall_forall. intros j _. unfold ks_byte. apply nth_byte_lt. unfold chacha_ks. destruct (length iv <=? 8); [|destruct (length iv <=? 12)]; apply bytes_le_string.
Qed.
Lemma recreate_at_byte s0 k iv : 0 < length k <= 32 -> length iv <= 24 -> exists s, chacha_recreate s0 0 k iv = Ok s /\ at_byte k iv 0 s.
Proof.
  intros Hk Hi. assert (E : exists s, chacha_recreate s0 0 k iv = Ok s).
  { unfold chacha_recreate, stream_args_ok, chacha_maxkey, chacha_maxiv. rewrite (proj2 (Nat.ltb_lt _ _)), !(proj2 (Nat.leb_le _ _)) by lia. cbn [andb assert_]. destruct (cc_setup 0 k iv). eauto. }
  destruct E as (s & E). exists s. split; [exact E|]. exists s, []. split; [right; now exists s0|]. split; [constructor|reflexivity].
Qed.

Section Run.
  Context (e0 : outside) (k0 : list N) (Hk0 : ot_seed e0 = Some k0).
  Local Notation t0 := (ot_seeded e0).
  Definition state_ok (h : list draw) (s : rand) : Prop := let '(k, iv, i) := stream_now k0 h in
    at_byte k iv i (rn_stream s) /\ bytes_ok k /\ length k = 32 /\ bytes_ok iv /\ length iv <= 8 /\ i = drawn h /\ rn_time s = seed_time t0 h /\
    rn_output s = N.of_nat (drawn_later h) /\ (rn_output s <= 5242880)%N /\ (N.of_nat i + 5242880 < 2 ^ 64 + N.of_nat (drawn_later h))%N.
  (** one call *)
  Definition must_renew (h : list draw) (now : Z) (len : nat) : bool := (5242880 <? N.of_nat (drawn_later h + len))%N || (300 <? now - seed_time t0 h)%Z.
  Lemma gen_ok h s e m dst len : state_ok h s -> outside_ok e -> len_ok len ->
    if must_renew h (ot_now e) len then
      match ot_seed e with
      | None => rn_gen (Some s) e m dst len = Ok (None, m, 0, false)
      | Some k => exists s' m', let d := {| dr_len := len; dr_out := rd m' dst len; dr_new := Some (k, ot_seeded e) |} in
          rn_gen (Some s) e m dst len = Ok (Some s', m', len, true) /\ draw_ok k0 h d /\ state_ok (d :: h) s' /\ frame m m' dst len
      end
    else exists s' m', let d := {| dr_len := len; dr_out := rd m' dst len; dr_new := None |} in
          rn_gen (Some s) e m dst len = Ok (Some s', m', len, false) /\ draw_ok k0 h d /\ state_ok (d :: h) s' /\ frame m m' dst len.
  Proof.
    unfold state_ok, draw_ok, must_renew. cbn [stream_now drawn drawn_later seed_time dr_len dr_out dr_new]. destruct (stream_now k0 h) as [[k iv] i] eqn:Es. intros (A & Bk & Lk & Bi & Li & Ei & Et & Eo & Ho & Hi) He Hl.
    unfold len_ok in Hl. change (2 ^ 64)%N with 18446744073709551616%N in *. unfold rn_gen, reseed_output, reseed_time. change (2 ^ 64)%N with 18446744073709551616%N. rewrite N.mod_small by lia. rewrite Eo, Et, <- Nat2N.inj_add.
    destruct (_ || _) eqn:D.
    - destruct (at_byte_gen k iv i (rn_stream s) (fun _ => 0%N) 0 8 A Bk Bi Li) as (st & m1 & E1 & R1 & A1 & _).
      { change (2 ^ 70 - 64)%N with 1180591620717411303360%N. lia. }
      rewrite E1. cbn [bind fst snd]. destruct (ot_seed e) as [k'|] eqn:Ek; [|reflexivity]. destruct (He k' Ek) as [Lk' Bk']. rewrite R1.
      destruct (recreate_at_byte st k' (chacha20 k iv i 8) ltac:(lia)) as (st' & E2 & A2); [rewrite chacha20_length; lia|]. rewrite E2. cbn [bind].
      destruct (at_byte_gen k' (chacha20 k iv i 8) 0 st' m dst len A2 Bk' (chacha20_bytes _ _ _ _)) as (s3 & m3 & E3 & R3 & A3 & F3).
      { rewrite chacha20_length. lia. } { change (2 ^ 70 - 64)%N with 1180591620717411303360%N. lia. }
      rewrite E3. cbn [bind fst snd]. eexists _, m3. split; [reflexivity|]. split; [exact R3|]. split; [|exact F3]. cbn [rn_stream rn_time rn_output].
      split; [exact A3|]. split; [exact Bk'|]. split; [exact Lk'|]. split; [apply chacha20_bytes|]. split; [rewrite chacha20_length; lia|]. split; [lia|]. split; [reflexivity|]. split; [reflexivity|]. split; lia.
    - apply orb_false_iff in D. destruct D as [D _]. apply N.ltb_ge in D.
      destruct (at_byte_gen k iv i (rn_stream s) m dst len A Bk Bi Li) as (st & m1 & E1 & R1 & A1 & F1).
      { change (2 ^ 70 - 64)%N with 1180591620717411303360%N. lia. }
      rewrite E1. cbn [bind fst snd]. eexists _, m1. split; [reflexivity|]. split; [exact R1|]. split; [|exact F1]. cbn [rn_stream rn_time rn_output].
      split; [exact A1|]. split; [exact Bk|]. split; [exact Lk|]. split; [exact Bi|]. split; [exact Li|]. split; [lia|]. split; [reflexivity|]. split; [lia|]. split; lia.
  Qed.
  Lemma create_ok s : outside_ok e0 -> rn_create e0 = Ok s -> state_ok [] s.
  Proof.
    intros H0 E. destruct (H0 k0 Hk0) as [L B]. unfold rn_create in E. rewrite Hk0 in E. destruct (chacha_create 0 k0 []) as [st|] eqn:E1; [|discriminate]. cbn [bind] in E. apply Ok_inj in E. subst s.
    unfold state_ok. cbn [stream_now rn_stream rn_time rn_output drawn drawn_later seed_time].
    split. { exists st, []. split; [now left|]. split; [constructor|reflexivity]. }
    split; [exact B|]. split; [exact L|]. split; [constructor|]. split; [cbn [length]; lia|]. split; [reflexivity|]. split; [reflexivity|]. split; [reflexivity|]. split; [lia|reflexivity].
  Qed.
  Lemma create_total : outside_ok e0 -> exists s, rn_create e0 = Ok s.
  Proof.
    intros H0. destruct (H0 k0 Hk0) as [L B]. unfold rn_create. rewrite Hk0. destruct (chacha_create_total 0 k0 [] ltac:(lia) ltac:(cbn [length]; lia)) as (s & E). rewrite E. cbn [bind]. eauto.
  Qed.
  (** every history *)
  Lemma used_ok h o : used e0 h o -> match o with Some s => state_ok h s | None => True end.
  Proof.
    induction 1 as [s H0 E|h o e m dst len o' m' n new U IH He Hl E]; [now apply create_ok|].
    destruct o' as [s'|]; [|exact I]. destruct o as [s|]; [|discriminate]. pose proof (gen_ok h s e m dst len IH He Hl) as G.
    destruct (must_renew h (ot_now e) len); [destruct (ot_seed e) as [k|]|].
    - destruct G as (s1 & m1 & E1 & _ & G & _). rewrite E in E1. apply Ok_inj in E1. injection E1 as -> -> -> ->. exact G.
    - rewrite E in G. discriminate.
    - destruct G as (s1 & m1 & E1 & _ & G & _). rewrite E in E1. apply Ok_inj in E1. injection E1 as -> -> -> ->. destruct (ot_seed e); exact G.
  Qed.

  Theorem gen_renews h s e m dst len : used e0 h (Some s) -> outside_ok e -> len_ok len ->
    (5242880 < N.of_nat (drawn_later h + len) \/ (300 < ot_now e - seed_time t0 h)%Z)%N ->
    match ot_seed e with
    | None => rn_gen (Some s) e m dst len = Ok (None, m, 0, false)
    | Some k => exists s' m', rn_gen (Some s) e m dst len = Ok (Some s', m', len, true) /\
        draw_ok k0 h {| dr_len := len; dr_out := rd m' dst len; dr_new := Some (k, ot_seeded e) |} /\ frame m m' dst len
    end.
  Proof.
    intros U He Hl D. pose proof (gen_ok h s e m dst len (used_ok _ _ U) He Hl) as G. replace (must_renew h (ot_now e) len) with true in G.
    - destruct (ot_seed e); [|exact G]. destruct G as (s' & m' & E & Dr & _ & F). now exists s', m'.
    - symmetry. apply orb_true_iff. destruct D; [left; now apply N.ltb_lt|right; now apply Z.ltb_lt].
  Qed.
  Theorem gen_continues h s e m dst len : used e0 h (Some s) -> outside_ok e -> len_ok len ->
    (N.of_nat (drawn_later h + len) <= 5242880)%N -> (ot_now e - seed_time t0 h <= 300)%Z ->
    exists s' m', rn_gen (Some s) e m dst len = Ok (Some s', m', len, false) /\ draw_ok k0 h {| dr_len := len; dr_out := rd m' dst len; dr_new := None |} /\ frame m m' dst len.
  Proof.
    intros U He Hl D1 D2. pose proof (gen_ok h s e m dst len (used_ok _ _ U) He Hl) as G. replace (must_renew h (ot_now e) len) with false in G.
    - destruct G as (s' & m' & E & Dr & _ & F). now exists s', m'.
    - symmetry. apply orb_false_iff. split; [now apply N.ltb_ge|now apply Z.ltb_ge].
  Qed.
  Theorem drawn_bound h s : used e0 h (Some s) -> (N.of_nat (drawn_later h) <= 5242880)%N.
  Proof. intros U. pose proof (used_ok _ _ U) as H. cbn beta iota in H. unfold state_ok in H. destruct (stream_now k0 h) as [[k iv] i]. destruct H as (_ & _ & _ & _ & _ & _ & _ & <- & H & _). exact H. Qed.
  Lemma drawn_first h k : (forall d, In d h -> dr_len d <= k) -> drawn h <= k + drawn_later h.
  Proof.
    induction h as [|d h IH]; intros H; cbn [drawn drawn_later]; [lia|]. pose proof (H d (or_introl eq_refl)) as A.
    destruct (dr_new d); [lia|]. specialize (IH (fun d Hd => H d (or_intror Hd))). lia.
  Qed.
  Theorem drawn_small h s k : used e0 h (Some s) -> (forall d, In d h -> dr_len d <= k) -> (N.of_nat (drawn h) <= N.of_nat k + 5242880)%N.
  Proof. intros U H. pose proof (drawn_bound _ _ U). pose proof (drawn_first _ _ H). lia. Qed.
  (** no request within the limits is answered by more than they allow, but the one that takes the seed does not count *)
  Theorem drawn_twice : outside_ok e0 -> exists h s, used e0 h (Some s) /\ (forall d, In d h -> (N.of_nat (dr_len d) <= 5242880)%N) /\ N.of_nat (drawn h) = (2 * 5242880)%N.
  Proof.
    intros H0. destruct (create_total H0) as (s0 & E0). pose (n := N.to_nat 5242880). assert (En : N.of_nat n = 5242880%N) by apply N2Nat.id. clearbody n.
    pose (e := {| ot_now := t0; ot_seed := Some k0; ot_seeded := t0 |}). assert (He : outside_ok e) by (intros k E; injection E as <-; now apply H0). assert (Hl : len_ok n) by (unfold len_ok; rewrite En; reflexivity).
    pose proof (used_new e0 s0 H0 E0) as U0.
    destruct (gen_continues [] s0 e (fun _ => 0%N) 0 n U0 He Hl) as (s1 & m1 & E1 & _ & _). { cbn [drawn_later]. rewrite Nat.add_0_l, En. lia. } { cbn [seed_time ot_now e]. lia. }
    pose proof (used_gen e0 _ _ _ _ _ _ _ _ _ _ U0 He Hl E1) as U1. cbn [ot_seed e] in U1.
    pose proof (gen_renews _ s1 e (fun _ => 0%N) 0 n U1 He Hl) as G. cbn [ot_seed e] in G. destruct G as (s2 & m2 & E2 & _ & _). { left. cbn [drawn_later dr_new dr_len]. lia. }
    pose proof (used_gen e0 _ _ _ _ _ _ _ _ _ _ U1 He Hl E2) as U2. cbn [ot_seed e] in U2.
    destruct (gen_continues _ s2 e (fun _ => 0%N) 0 n U2 He Hl) as (s3 & m3 & E3 & _ & _). { cbn [drawn_later dr_new]. rewrite Nat.add_0_l, En. lia. } { cbn [seed_time dr_new ot_now ot_seeded e]. lia. }
    pose proof (used_gen e0 _ _ _ _ _ _ _ _ _ _ U2 He Hl E3) as U3. cbn [ot_seed e] in U3.
    eexists _, s3. split; [exact U3|]. split.
    - intros d [<-|[<-|[<-|[]]]]; cbn [dr_len]; lia.
    - cbn [drawn dr_len dr_new]. lia.
  Qed.
End Run.
(** one request of any length is answered from one seed *)
Theorem drawn_much e0 k0 n : ot_seed e0 = Some k0 -> outside_ok e0 -> len_ok n -> exists h s, used e0 h (Some s) /\ drawn h = n.
Proof.
  intros Hk H0 Hl. destruct (create_total e0 k0 Hk H0) as (s0 & E0). pose proof (used_new e0 s0 H0 E0) as U0.
  destruct (N.le_gt_cases (N.of_nat n) 5242880) as [L|L].
  - pose (e := {| ot_now := ot_seeded e0; ot_seed := Some k0; ot_seeded := ot_seeded e0 |}). assert (He : outside_ok e) by (intros k E; injection E as <-; now apply H0).
    destruct (gen_continues e0 k0 Hk [] s0 e (fun _ => 0%N) 0 n U0 He Hl) as (s1 & m1 & E1 & _ & _); [exact L|cbn [seed_time ot_now e]; lia|].
    eexists _, s1. split; [exact (used_gen e0 _ _ _ _ _ _ _ _ _ _ U0 He Hl E1)|]. cbn [drawn dr_len dr_new ot_seed e]. lia.
  - pose proof (gen_renews e0 k0 Hk [] s0 e0 (fun _ => 0%N) 0 n U0 H0 Hl (or_introl L)) as G. rewrite Hk in G. destruct G as (s1 & m1 & E1 & _ & _).
    eexists _, s1. split; [exact (used_gen e0 _ _ _ _ _ _ _ _ _ _ U0 H0 Hl E1)|]. rewrite Hk. cbn [drawn dr_len dr_new]. lia.
Qed.
(** the object is freed when a seed cannot be had *)
Theorem failed_gone e m dst len : rn_gen None e m dst len = Err UseAfterFree.
Proof. reflexivity. Qed.
