(** Loops over the caller's buffers. *)
From Coq Require Import NArith Arith List Bool Lia.
From Verif Require Import Lib.Word Lib.Res Lib.Bytes Model.Mem Spec.Modes.
Import ListNotations.
Local Open Scope nat_scope.

Lemma length_rd m a n : length (rd m a n) = n.
Proof. unfold rd. now rewrite map_length, seq_length. Qed.
Lemma rd_S m a n : rd m a (S n) = rd m a n ++ [m (a + n)].
Proof. unfold rd. rewrite seq_S, map_app. reflexivity. Qed.
Lemma rd_cons m a n : rd m a (S n) = m a :: rd m (S a) n.
Proof.
  unfold rd. cbn [seq map]. rewrite Nat.add_0_r. f_equal. rewrite <- seq_shift, map_map. apply map_ext.
  intros i. f_equal. lia.
Qed.
Lemma rd_app m a n k : rd m a (n + k) = rd m a n ++ rd m (a + n) k.
Proof.
  revert a. induction n as [|n IH]; intros a; [now rewrite Nat.add_0_r|].
  cbn [Nat.add]. rewrite !rd_cons, IH. cbn [app]. now rewrite <- plus_n_Sm.
Qed.
Lemma nth_rd m a n i : i < n -> nth i (rd m a n) 0%N = m (a + i).
Proof.
  intros H. unfold rd. rewrite (nth_indep _ 0%N (m (a + 0))) by (rewrite map_length, seq_length; exact H).
  rewrite (map_nth (fun i => m (a + i)) (seq 0 n) 0). now rewrite seq_nth.
Qed.
Lemma rd_ext m m' a n : (forall x, a <= x < a + n -> m x = m' x) -> rd m a n = rd m' a n.
Proof. intros H. unfold rd. apply map_ext_in. intros i Hi. apply in_seq in Hi. apply H. lia. Qed.
Lemma rd_list m a n l : length l = n -> (forall i, i < n -> m (a + i) = nth i l 0%N) -> rd m a n = l.
Proof.
  intros Hl H. apply nth_ext with (d := 0%N) (d' := 0%N); rewrite length_rd; [now symmetry|].
  intros i Hi. rewrite nth_rd by exact Hi. now apply H.
Qed.

Lemma wr_in m a l x : a <= x < a + length l -> wr m a l x = nth (x - a) l 0%N.
Proof.
  intros H. unfold wr. now rewrite (proj2 (Nat.leb_le a x)), (proj2 (Nat.ltb_lt x (a + length l))) by lia.
Qed.
Lemma wr_out m a l x : x < a \/ a + length l <= x -> wr m a l x = m x.
Proof.
  intros H. unfold wr. destruct (Nat.leb_spec a x), (Nat.ltb_spec x (a + length l)); cbn [andb]; try reflexivity. lia.
Qed.
Lemma rd_wr m a l : rd (wr m a l) a (length l) = l.
Proof. apply rd_list; [reflexivity|]. intros i Hi. rewrite wr_in by lia. f_equal. lia. Qed.
Lemma rd_wr' m a l n : length l = n -> rd (wr m a l) a n = l.
Proof. intros <-. apply rd_wr. Qed.
Lemma wr1_eq m a b : wr1 m a b a = b.
Proof. unfold wr1. now rewrite Nat.eqb_refl. Qed.
Lemma wr1_neq m a b x : x <> a -> wr1 m a b x = m x.
Proof. intros H. unfold wr1. now rewrite (proj2 (Nat.eqb_neq x a) H). Qed.

Lemma frame_refl m dst len : frame m m dst len.
Proof. now intros x _. Qed.
Lemma frame_trans m1 m2 m3 dst len : frame m1 m2 dst len -> frame m2 m3 dst len -> frame m1 m3 dst len.
Proof. intros H1 H2 x Hx. rewrite H2 by exact Hx. now apply H1. Qed.
Lemma frame_sub m m' dst len o n : dst <= o -> o + n <= dst + len -> frame m m' o n -> frame m m' dst len.
Proof. intros H1 H2 H x Hx. apply H. lia. Qed.

(** run a byte transformer over a list *)
Fixpoint brun {S} (step : S -> N -> res (S * N)) (s : S) (l : list N) : res (S * list N) :=
  match l with
  | [] => Ok (s, [])
  | b :: t => let* p := step s b in let* q := brun step (fst p) t in Ok (fst q, snd p :: snd q)
  end.

Lemma brun_app {S} (step : S -> N -> res (S * N)) s a b :
  brun step s (a ++ b) =
  let* p := brun step s a in let* q := brun step (fst p) b in Ok (fst q, snd p ++ snd q).
Proof.
  revert s. induction a as [|x a IH]; intros s; cbn [app brun].
  - cbn [bind fst snd app]. destruct (brun step s b) as [[s' o]|e]; reflexivity.
  - destruct (step s x) as [[s1 y]|e]; cbn [bind fst snd]; [|reflexivity]. rewrite IH.
    destruct (brun step s1 a) as [[s2 o2]|e]; cbn [bind fst snd]; [|reflexivity].
    destruct (brun step s2 b) as [[s3 o3]|e]; reflexivity.
Qed.

Lemma brun_len {S} (step : S -> N -> res (S * N)) s l s' o : brun step s l = Ok (s', o) -> length o = length l.
Proof.
  revert s o. induction l as [|b t IH]; intros s o H; cbn [brun] in H.
  - injection H as <- <-. reflexivity.
  - apply bind_ok in H. destruct H as ([s1 y] & _ & H). apply bind_ok in H. destruct H as ([s2 o2] & E & H).
    cbn [fst snd] in *. injection H as H1 H2. subst s2 o. cbn [length]. f_equal. now apply (IH s1).
Qed.

(** The loop over buffers is the run over the input bytes, as long as the output does not
    overtake the input. *)
Lemma bloop_run {S} (step : S -> N -> res (S * N)) s m src dst len s' out :
  buffers_ok src dst len ->
  brun step s (rd m src len) = Ok (s', out) ->
  exists m', bloop step src dst len (s, m) = Ok (s', m') /\ rd m' dst len = out /\ frame m m' dst len.
Proof.
  intros Hb H. unfold bloop.
  set (body := fun (i : nat) (sm : S * mem) =>
    let* p := step (fst sm) (snd sm (src + i)) in Ok (fst p, wr1 (snd sm) (dst + i) (snd p))).
  assert (G : forall n i s m1, i + n = len -> (forall x, src + i <= x < src + len -> m1 x = m x) ->
    forall out, brun step s (rd m (src + i) n) = Ok (s', out) ->
    exists m', mfor n i body (s, m1) = Ok (s', m') /\ rd m' (dst + i) n = out /\ frame m1 m' (dst + i) n).
  { clear s out H. induction n as [|n IH]; intros i s m1 Hi Hm out H.
    - cbn in H. injection H as <- <-. exists m1. repeat split.
    - rewrite rd_cons in H. cbn [brun] in H.
      apply bind_ok in H. destruct H as ([s1 y] & E1 & H). apply bind_ok in H. destruct H as ([s2 o2] & E2 & H).
      cbn [fst snd] in *. injection H as H1 H2. subst s2 out.
      cbn [mfor]. unfold body at 1. cbn [fst snd]. rewrite (Hm (src + i)) by lia. rewrite E1. cbn [bind fst snd].
      destruct (IH (Datatypes.S i) s1 (wr1 m1 (dst + i) y)) with (out := o2) as (m' & E & R & F).
      + lia.
      + intros x Hx. rewrite wr1_neq; [apply Hm; lia|]. destruct Hb; lia.
      + now replace (src + Datatypes.S i) with (Datatypes.S (src + i)) by lia.
      + exists m'. split; [exact E|]. split.
        * rewrite rd_cons. f_equal.
          -- rewrite F by lia. apply wr1_eq.
          -- now replace (Datatypes.S (dst + i)) with (dst + Datatypes.S i) by lia.
        * intros x Hx. rewrite F by lia. apply wr1_neq. lia. }
  destruct (G len 0 s m) with (out := out) as (m' & E & R & F); try assumption.
  - lia.
  - intros x Hx. reflexivity.
  - now rewrite Nat.add_0_r.
  - rewrite Nat.add_0_r in *. now exists m'.
Qed.

(** the same for a generator *)
Fixpoint grun {S} (step : S -> res (S * N)) (s : S) (n : nat) : res (S * list N) :=
  match n with
  | O => Ok (s, [])
  | Datatypes.S n => let* p := step s in let* q := grun step (fst p) n in Ok (fst q, snd p :: snd q)
  end.

Lemma bloop0_run {S} (step : S -> res (S * N)) s m dst len s' out :
  grun step s len = Ok (s', out) ->
  exists m', bloop0 step dst len (s, m) = Ok (s', m') /\ rd m' dst len = out /\ frame m m' dst len.
Proof.
  intros H. unfold bloop0. set (body := fun (i : nat) (sm : S * mem) =>
    let* p := step (fst sm) in Ok (fst p, wr1 (snd sm) (dst + i) (snd p))).
  assert (G : forall n i s m1, i + n = len ->
    forall out, grun step s n = Ok (s', out) ->
    exists m', mfor n i body (s, m1) = Ok (s', m') /\ rd m' (dst + i) n = out /\ frame m1 m' (dst + i) n).
  { clear s out H. induction n as [|n IH]; intros i s m1 Hi out H.
    - cbn in H. injection H as <- <-. exists m1. repeat split.
    - cbn [grun] in H.
      apply bind_ok in H. destruct H as ([s1 y] & E1 & H). apply bind_ok in H. destruct H as ([s2 o2] & E2 & H).
      cbn [fst snd] in *. injection H as H1 H2. subst s2 out.
      cbn [mfor]. unfold body at 1. cbn [fst snd]. rewrite E1. cbn [bind fst snd].
      destruct (IH (Datatypes.S i) s1 (wr1 m1 (dst + i) y) ltac:(lia) o2 E2) as (m' & E & R & F).
      exists m'. split; [exact E|]. split.
      + rewrite rd_cons. f_equal.
        * rewrite F by lia. apply wr1_eq.
        * now replace (Datatypes.S (dst + i)) with (dst + Datatypes.S i) by lia.
      + intros x Hx. rewrite F by lia. apply wr1_neq. lia. }
  destruct (G len 0 s m ltac:(lia) out H) as (m' & E & R & F).
  rewrite Nat.add_0_r in *. now exists m'.
Qed.

(** ** Key streams: steps that xor the next byte of [ks] *)
Section KeyStream.
  Context {S : Type} (step : S -> N -> res (S * N)) (gstep : S -> res (S * N)) (at_ : nat -> S -> Prop) (ks : nat -> N).
  Hypothesis Hstep : forall i s b, at_ i s -> exists s', step s b = Ok (s', N.lxor b (ks i)) /\ at_ (Datatypes.S i) s'.
  Hypothesis Hgstep : forall i s, at_ i s -> exists s', gstep s = Ok (s', ks i) /\ at_ (Datatypes.S i) s'.

  Lemma brun_ks i s l : at_ i s -> exists s', brun step s l = Ok (s', xor_ks ks i l) /\ at_ (i + length l) s'.
  Proof.
    revert i s. induction l as [|b t IH]; intros i s Hs; cbn [brun xor_ks length].
    - exists s. now rewrite Nat.add_0_r.
    - destruct (Hstep i s b Hs) as (s1 & E1 & H1). rewrite E1. cbn [bind fst snd].
      destruct (IH _ _ H1) as (s2 & E2 & H2). rewrite E2. cbn [bind fst snd].
      exists s2. split; [reflexivity|]. now rewrite <- plus_n_Sm.
  Qed.

  Lemma grun_ks i s n : at_ i s -> exists s', grun gstep s n = Ok (s', map ks (seq i n)) /\ at_ (i + n) s'.
  Proof.
    revert i s. induction n as [|n IH]; intros i s Hs; cbn [grun seq map].
    - exists s. now rewrite Nat.add_0_r.
    - destruct (Hgstep i s Hs) as (s1 & E1 & H1). rewrite E1. cbn [bind fst snd].
      destruct (IH _ _ H1) as (s2 & E2 & H2). rewrite E2. cbn [bind fst snd].
      exists s2. split; [reflexivity|]. now rewrite <- plus_n_Sm.
  Qed.

  Lemma crypt_ks i s m src dst len : at_ i s -> buffers_ok src dst len ->
    exists s' m', bloop step src dst len (s, m) = Ok (s', m') /\ at_ (i + len) s' /\
      rd m' dst len = xor_ks ks i (rd m src len) /\ frame m m' dst len.
  Proof.
    intros Hs Hb. destruct (brun_ks i s (rd m src len) Hs) as (s' & E & H).
    rewrite length_rd in H. destruct (bloop_run _ _ _ _ _ _ _ _ Hb E) as (m' & E' & R & F).
    exists s', m'. auto.
  Qed.

  Lemma prng_ks i s m dst len : at_ i s ->
    exists s' m', bloop0 gstep dst len (s, m) = Ok (s', m') /\ at_ (i + len) s' /\
      rd m' dst len = map ks (seq i len) /\ frame m m' dst len.
  Proof.
    intros Hs. destruct (grun_ks i s len Hs) as (s' & E & H).
    destruct (bloop0_run _ _ m dst _ _ _ E) as (m' & E' & R & F).
    exists s', m'. auto.
  Qed.
End KeyStream.

Lemma length_xor_ks ks i l : length (xor_ks ks i l) = length l.
Proof. revert i; induction l; intros i; cbn; auto. Qed.
Lemma xor_ks_invol ks i l : xor_ks ks i (xor_ks ks i l) = l.
Proof. revert i; induction l as [|b t IH]; intros i; cbn [xor_ks]; [reflexivity|]. now rewrite IH, lxor_cancel. Qed.
Lemma xor_ks_app ks i a b : xor_ks ks i (a ++ b) = xor_ks ks i a ++ xor_ks ks (i + length a) b.
Proof.
  revert i; induction a as [|x a IH]; intros i; cbn [app xor_ks length]; [now rewrite Nat.add_0_r|].
  rewrite IH. now rewrite <- plus_n_Sm.
Qed.
Lemma xor_ks_ext ks ks' i l : (forall j, i <= j < i + length l -> ks j = ks' j) -> xor_ks ks i l = xor_ks ks' i l.
Proof.
  revert i; induction l as [|b t IH]; intros i H; cbn [xor_ks]; [reflexivity|]. cbn [length] in H.
  rewrite (H i) by lia. f_equal. apply IH. intros j Hj. apply H. lia.
Qed.
Lemma nth_xor_ks ks i l j : j < length l -> nth j (xor_ks ks i l) 0%N = N.lxor (nth j l 0%N) (ks (i + j)).
Proof.
  revert i j; induction l as [|b t IH]; intros i [|j] H; cbn [length] in H; try lia; cbn [xor_ks nth].
  - now rewrite Nat.add_0_r.
  - rewrite IH by lia. now rewrite <- plus_n_Sm.
Qed.

Section Sessions.
  Context {S : Type} (step : S -> N -> res (S * N)) (gstep : S -> res (S * N)) (at_ : nat -> S -> Prop) (ks : nat -> N).
  Hypothesis Hstep : forall i s b, at_ i s -> exists s', step s b = Ok (s', N.lxor b (ks i)) /\ at_ (Datatypes.S i) s'.
  Hypothesis Hgstep : forall i s, at_ i s -> exists s', gstep s = Ok (s', ks i) /\ at_ (Datatypes.S i) s'.
  Let op s m src dst len := bloop step src dst len (s, m).
  Let gop s m dst len := bloop0 gstep dst len (s, m).

  Lemma session_ks i s inp s' out : at_ i s -> session op s inp s' out ->
    out = xor_ks ks i inp /\ at_ (i + length inp) s'.
  Proof.
    intros Hs H. revert i Hs. induction H as [s|s m src dst len s1 m1 inp s2 out Hb Hi E H IH]; intros i Hs.
    - cbn [xor_ks length]. now rewrite Nat.add_0_r.
    - destruct (crypt_ks step at_ ks Hstep i s m src dst len Hs Hb) as (s1' & m1' & E' & Hs' & R & _).
      unfold op in E. rewrite E in E'. apply Ok_inj in E'. injection E' as <- <-.
      destruct (IH _ Hs') as [-> HA]. rewrite R, xor_ks_app, length_rd. split; [reflexivity|].
      rewrite app_length, length_rd. now rewrite Nat.add_assoc.
  Qed.
  Lemma safe_ks i s mult : at_ i s -> call_safe op mult s.
  Proof.
    intros Hs m src dst len _ Hb _.
    destruct (crypt_ks step at_ ks Hstep i s m src dst len Hs Hb) as (s' & m' & E & _ & _ & F). now exists s', m'.
  Qed.
  Lemma gsession_ks i s s' out : at_ i s -> gsession gop s s' out ->
    out = map ks (seq i (length out)) /\ at_ (i + length out) s'.
  Proof.
    intros Hs H. revert i Hs. induction H as [s|s m dst len s1 m1 s2 out E H IH]; intros i Hs.
    - cbn [seq map length]. now rewrite Nat.add_0_r.
    - destruct (prng_ks gstep at_ ks Hgstep i s m dst len Hs) as (s1' & m1' & E' & Hs' & R & _).
      unfold gop in E. rewrite E in E'. apply Ok_inj in E'. injection E' as <- <-.
      destruct (IH _ Hs') as [E2 HA]. rewrite app_length, length_rd, seq_app, map_app, <- E2, <- R.
      split; [reflexivity|]. now rewrite Nat.add_assoc.
  Qed.
  Lemma gsafe_ks i s : at_ i s -> gcall_safe gop s.
  Proof.
    intros Hs m dst len.
    destruct (prng_ks gstep at_ ks Hgstep i s m dst len Hs) as (s' & m' & E & _ & _ & F). now exists s', m'.
  Qed.
End Sessions.
