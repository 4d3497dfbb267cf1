(** Key streams that end: the generator fails (an assert of the library) once position
    [lim] is false.  Also the common shape of a generator with a block buffer. *)
From Coq Require Import NArith Arith List Bool Lia.
From Verif Require Import Lib.Word Lib.Res Lib.Bytes Model.Mem Spec.Modes Lib.MemLemmas.
Import ListNotations.
Local Open Scope nat_scope.

Lemma first_false (p : nat -> bool) n : (forall j, j < n -> p j = true) \/
  exists k, k < n /\ (forall j, j < k -> p j = true) /\ p k = false.
Proof.
  induction n as [|n [IH|(k & Hk & A & B)]].
  - left. lia.
  - destruct (p n) eqn:E.
    + left. intros j Hj. destruct (Nat.eq_dec j n) as [->|Hn]; [exact E|]. apply IH. lia.
    + right. exists n. repeat split; [lia|exact IH|exact E].
  - right. exists k. repeat split; [lia|exact A|exact B].
Qed.

Section Limited.
  Context {S : Type} (step : S -> N -> res (S * N)) (gstep : S -> res (S * N))
    (at_ : nat -> S -> Prop) (ks : nat -> N) (lim : nat -> bool).
  Hypothesis Hstep : forall i s b, at_ i s ->
    if lim i then exists s', step s b = Ok (s', N.lxor b (ks i)) /\ at_ (Datatypes.S i) s'
    else exists e, step s b = Err e.
  Hypothesis Hgstep : forall i s, at_ i s ->
    if lim i then exists s', gstep s = Ok (s', ks i) /\ at_ (Datatypes.S i) s'
    else exists e, gstep s = Err e.
  Let op s m src dst len := bloop step src dst len (s, m).
  Let gop s m dst len := bloop0 gstep dst len (s, m).

  Lemma brun_lim i s l : at_ i s -> (forall j, j < length l -> lim (i + j) = true) ->
    exists s', brun step s l = Ok (s', xor_ks ks i l) /\ at_ (i + length l) s'.
  Proof.
    revert i s. induction l as [|b t IH]; intros i s Hs Hl; cbn [brun xor_ks length].
    - exists s. now rewrite Nat.add_0_r.
    - pose proof (Hstep i s b Hs) as H. rewrite <- (Nat.add_0_r i), Hl in H by (cbn; lia). rewrite Nat.add_0_r in H.
      destruct H as (s1 & E1 & H1). rewrite E1. cbn [bind fst snd].
      destruct (IH _ _ H1) as (s2 & E2 & H2).
      + intros j Hj. rewrite <- (Hl (Datatypes.S j)) by (cbn; lia). f_equal. lia.
      + rewrite E2. cbn [bind fst snd]. exists s2. split; [reflexivity|]. now rewrite <- plus_n_Sm.
  Qed.
  Lemma grun_lim i s n : at_ i s -> (forall j, j < n -> lim (i + j) = true) ->
    exists s', grun gstep s n = Ok (s', map ks (seq i n)) /\ at_ (i + n) s'.
  Proof.
    revert i s. induction n as [|n IH]; intros i s Hs Hl; cbn [grun seq map].
    - exists s. now rewrite Nat.add_0_r.
    - pose proof (Hgstep i s Hs) as H. rewrite <- (Nat.add_0_r i), Hl in H by lia. rewrite Nat.add_0_r in H.
      destruct H as (s1 & E1 & H1). rewrite E1. cbn [bind fst snd].
      destruct (IH _ _ H1) as (s2 & E2 & H2).
      + intros j Hj. rewrite <- (Hl (Datatypes.S j)) by lia. f_equal. lia.
      + rewrite E2. cbn [bind fst snd]. exists s2. split; [reflexivity|]. now rewrite <- plus_n_Sm.
  Qed.
  Lemma crypt_lim i s m src dst len : at_ i s -> buffers_ok src dst len -> (forall j, j < len -> lim (i + j) = true) ->
    exists s' m', bloop step src dst len (s, m) = Ok (s', m') /\ at_ (i + len) s' /\
      rd m' dst len = xor_ks ks i (rd m src len) /\ frame m m' dst len.
  Proof.
    intros Hs Hb Hl. destruct (brun_lim i s (rd m src len) Hs) as (s' & E & H); [now rewrite length_rd|].
    rewrite length_rd in H. destruct (bloop_run _ _ _ _ _ _ _ _ Hb E) as (m' & E' & R & F).
    exists s', m'. auto.
  Qed.
  Lemma prng_lim i s m dst len : at_ i s -> (forall j, j < len -> lim (i + j) = true) ->
    exists s' m', bloop0 gstep dst len (s, m) = Ok (s', m') /\ at_ (i + len) s' /\
      rd m' dst len = map ks (seq i len) /\ frame m m' dst len.
  Proof.
    intros Hs Hl. destruct (grun_lim i s len Hs Hl) as (s' & E & H).
    destruct (bloop0_run _ _ m dst _ _ _ E) as (m' & E' & R & F).
    exists s', m'. auto.
  Qed.
  (** a call that succeeds has stayed within the limit *)
  Lemma crypt_within i s m src dst len s' m' : at_ i s -> buffers_ok src dst len ->
    bloop step src dst len (s, m) = Ok (s', m') -> forall j, j < len -> lim (i + j) = true.
  Proof.
    intros Hs Hb E. destruct (first_false (fun j => lim (i + j)) len) as [A|(k & Hk & A & B)]; [exact A|exfalso].
    destruct (crypt_lim i s m src dst k Hs ltac:(destruct Hb; [left|right]; lia) A) as (s1 & m1 & E1 & H1 & _).
    unfold bloop in E, E1. replace len with (k + Datatypes.S (len - k - 1)) in E by lia.
    rewrite mfor_app, E1 in E. cbn [bind] in E. cbn [mfor] in E. cbn [fst snd] in E.
    pose proof (Hstep _ _ (m1 (src + (0 + k))) H1) as H2. rewrite B in H2. destruct H2 as (e & H2).
    rewrite ?Nat.add_0_l in *. rewrite H2 in E. discriminate.
  Qed.
  Lemma prng_within i s m dst len s' m' : at_ i s ->
    bloop0 gstep dst len (s, m) = Ok (s', m') -> forall j, j < len -> lim (i + j) = true.
  Proof.
    intros Hs E. destruct (first_false (fun j => lim (i + j)) len) as [A|(k & Hk & A & B)]; [exact A|exfalso].
    destruct (prng_lim i s m dst k Hs A) as (s1 & m1 & E1 & H1 & _).
    unfold bloop0 in E, E1. replace len with (k + Datatypes.S (len - k - 1)) in E by lia.
    rewrite mfor_app, E1 in E. cbn [bind] in E. cbn [mfor] in E. cbn [fst snd] in E.
    pose proof (Hgstep _ _ H1) as H2. rewrite B in H2. destruct H2 as (e & H2).
    rewrite H2 in E. discriminate.
  Qed.

  Lemma session_lim i s inp s' out : at_ i s -> session op s inp s' out ->
    out = xor_ks ks i inp /\ at_ (i + length inp) s'.
  Proof.
    intros Hs H. revert i Hs. induction H as [s|s m src dst len s1 m1 inp s2 out Hb Hi E H IH]; intros i Hs.
    - cbn [xor_ks length]. now rewrite Nat.add_0_r.
    - destruct (crypt_lim i s m src dst len Hs Hb (crypt_within _ _ _ _ _ _ _ _ Hs Hb E)) as (s1' & m1' & E' & Hs' & R & _).
      unfold op in E. rewrite E in E'. apply Ok_inj in E'. injection E' as <- <-.
      destruct (IH _ Hs') as [-> HA]. rewrite R, xor_ks_app, length_rd. split; [reflexivity|].
      rewrite app_length, length_rd. now rewrite Nat.add_assoc.
  Qed.
  Lemma gsession_lim i s s' out : at_ i s -> gsession gop s s' out ->
    out = map ks (seq i (length out)) /\ at_ (i + length out) s'.
  Proof.
    intros Hs H. revert i Hs. induction H as [s|s m dst len s1 m1 s2 out E H IH]; intros i Hs.
    - cbn [seq map length]. now rewrite Nat.add_0_r.
    - destruct (prng_lim i s m dst len Hs (prng_within _ _ _ _ _ _ _ Hs E)) as (s1' & m1' & E' & Hs' & R & _).
      unfold gop in E. rewrite E in E'. apply Ok_inj in E'. injection E' as <- <-.
      destruct (IH _ Hs') as [E2 HA]. rewrite app_length, length_rd, seq_app, map_app, <- E2, <- R.
      split; [reflexivity|]. now rewrite Nat.add_assoc.
  Qed.
  Lemma safe_lim i s n : at_ i s -> (forall j, j < n -> lim (i + j) = true) -> call_safe_upto op n s.
  Proof.
    intros Hs Hl m src dst len Hn Hb _.
    destruct (crypt_lim i s m src dst len Hs Hb) as (s' & m' & E & _ & _ & F); [intros; apply Hl; lia|]. now exists s', m'.
  Qed.
  Lemma gsafe_lim i s n : at_ i s -> (forall j, j < n -> lim (i + j) = true) -> gcall_safe_upto gop n s.
  Proof.
    intros Hs Hl m dst len Hn.
    destruct (prng_lim i s m dst len Hs) as (s' & m' & E & _ & _ & F); [intros; apply Hl; lia|]. now exists s', m'.
  Qed.
End Limited.

(** ** A generator with a buffer of [bs] bytes refilled from block to block *)
Section Buffered.
  Context {S : Type} (bs : nat) (used : S -> nat) (buf : S -> list N) (setused : S -> nat -> S) (refill : S -> res S)
    (inv : nat -> S -> Prop) (blocks : nat -> list N) (limb : nat -> bool).
  Hypothesis Hbs : bs <> 0.
  Hypothesis Hlen : forall n, length (blocks n) = bs.
  Hypothesis Hrefill : forall n s, inv n s ->
    if limb n then exists s', refill s = Ok s' /\ inv (Datatypes.S n) s' /\ buf s' = blocks n /\ used s' = 0
    else exists e, refill s = Err e.
  Hypothesis Hset : forall n s u, inv n s -> inv n (setused s u).
  Hypothesis Hbuf : forall s u, buf (setused s u) = buf s.
  Hypothesis Hused : forall s u, used (setused s u) = u.

  Definition buf_get (s : S) : res (S * N) :=
    let* s := if used s =? bs then refill s else Ok s in
    let* k := get (buf s) (used s) in Ok (setused s (Datatypes.S (used s)), k).
  Definition buf_step (s : S) (b : N) : res (S * N) :=
    let* s := if used s =? bs then refill s else Ok s in
    let* k := get (buf s) (used s) in Ok (setused s (Datatypes.S (used s)), N.lxor b k).

  (** [i] bytes have been produced *)
  Definition buf_at (i : nat) (s : S) : Prop :=
    (i mod bs = 0 /\ used s = bs /\ inv (i / bs) s) \/
    (i mod bs <> 0 /\ used s = i mod bs /\ inv (Datatypes.S (i / bs)) s /\ buf s = blocks (i / bs)).
  Definition buf_lim (i : nat) : bool := negb (i mod bs =? 0) || limb (i / bs).

  Lemma divmod_S i : i mod bs <> bs - 1 -> Datatypes.S i / bs = i / bs /\ Datatypes.S i mod bs = Datatypes.S (i mod bs).
  Proof.
    intros H. pose proof (Nat.mod_upper_bound i bs Hbs). pose proof (Nat.div_mod i bs Hbs).
    split; symmetry.
    - apply Nat.div_unique with (r := Datatypes.S (i mod bs)); lia.
    - apply Nat.mod_unique with (q := i / bs); lia.
  Qed.
  Lemma divmod_wrap i : i mod bs = bs - 1 -> Datatypes.S i / bs = Datatypes.S (i / bs) /\ Datatypes.S i mod bs = 0.
  Proof.
    intros H. pose proof (Nat.mod_upper_bound i bs Hbs). pose proof (Nat.div_mod i bs Hbs).
    split; symmetry.
    - apply Nat.div_unique with (r := 0); lia.
    - apply Nat.mod_unique with (q := Datatypes.S (i / bs)); lia.
  Qed.
  Lemma buf_advance i s : inv (Datatypes.S (i / bs)) s -> buf s = blocks (i / bs) -> used s = i mod bs ->
    buf_at (Datatypes.S i) (setused s (Datatypes.S (used s))).
  Proof.
    intros Hi Hb Hu. pose proof (Nat.mod_upper_bound i bs Hbs).
    destruct (Nat.eq_dec (i mod bs) (bs - 1)) as [E|E].
    - destruct (divmod_wrap i E) as [D M]. left. rewrite D, M, Hused. repeat split; [lia|]. now apply Hset.
    - destruct (divmod_S i E) as [D M]. right. rewrite D, M, Hused, Hbuf. repeat split; try lia; [|exact Hb]. now apply Hset.
  Qed.
  Lemma buf_refilled i s : buf_at i s ->
    if buf_lim i then exists s', (if used s =? bs then refill s else Ok s) = Ok s' /\
      inv (Datatypes.S (i / bs)) s' /\ buf s' = blocks (i / bs) /\ used s' = i mod bs
    else exists e, (if used s =? bs then refill s else Ok s) = Err e.
  Proof.
    intros [(M & U & I)|(M & U & I & B)]; unfold buf_lim.
    - rewrite M, U, !Nat.eqb_refl. cbn [negb orb]. pose proof (Hrefill _ _ I) as H.
      destruct (limb (i / bs)); [|exact H]. destruct H as (s' & E & I' & B & U'). exists s'. auto.
    - destruct (Nat.eqb_spec (i mod bs) 0) as [E|_]; [contradiction|]. cbn [negb orb].
      pose proof (Nat.mod_upper_bound i bs Hbs).
      destruct (Nat.eqb_spec (used s) bs) as [E|_]; [lia|]. exists s. auto.
  Qed.
  Lemma buf_step_ok i s b : buf_at i s ->
    if buf_lim i then exists s', buf_step s b = Ok (s', N.lxor b (ks_byte bs blocks i)) /\ buf_at (Datatypes.S i) s'
    else exists e, buf_step s b = Err e.
  Proof.
    intros H. pose proof (buf_refilled i s H) as R. unfold buf_step. destruct (buf_lim i).
    - destruct R as (s' & E & I & B & U). rewrite E. cbn [bind].
      rewrite (get_ok _ _ 0%N) by (rewrite B, U, Hlen; now apply Nat.mod_upper_bound). cbn [bind].
      eexists. split; [unfold ks_byte; rewrite B, U; reflexivity|]. rewrite <- U. now apply buf_advance.
    - destruct R as (e & E). rewrite E. now exists e.
  Qed.
  Lemma buf_get_ok i s : buf_at i s ->
    if buf_lim i then exists s', buf_get s = Ok (s', ks_byte bs blocks i) /\ buf_at (Datatypes.S i) s'
    else exists e, buf_get s = Err e.
  Proof.
    intros H. pose proof (buf_refilled i s H) as R. unfold buf_get. destruct (buf_lim i).
    - destruct R as (s' & E & I & B & U). rewrite E. cbn [bind].
      rewrite (get_ok _ _ 0%N) by (rewrite B, U, Hlen; now apply Nat.mod_upper_bound). cbn [bind].
      eexists. split; [unfold ks_byte; rewrite B, U; reflexivity|]. rewrite <- U. now apply buf_advance.
    - destruct R as (e & E). rewrite E. now exists e.
  Qed.
  Lemma buf_at_0 s : inv 0 s -> used s = bs -> buf_at 0 s.
  Proof. intros I U. left. rewrite Nat.mod_0_l, Nat.div_0_l by exact Hbs. auto. Qed.
End Buffered.
