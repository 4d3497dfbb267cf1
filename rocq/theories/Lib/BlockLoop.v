(** Loops over the caller's buffers that go block by block. *)
From Coq Require Import NArith Arith List Bool Lia.
From Verif Require Import Lib.Word Lib.Res Lib.Bytes Model.Mem Spec.Modes Lib.MemLemmas.
Import ListNotations.
Local Open Scope nat_scope.

Section Blocks.
  Context {S : Type} (bs : nat) (step : S -> list N -> S * list N).

  (** run a block transformer over the blocks of a list *)
  Fixpoint crun (n : nat) (s : S) (l : list N) : S * list N :=
    match n with
    | O => (s, [])
    | Datatypes.S n =>
        let p := step s (firstn bs l) in
        let q := crun n (fst p) (skipn bs l) in
        (fst q, snd p ++ snd q)
    end.

  Lemma crun_app n1 n2 s a b : length a = n1 * bs ->
    crun (n1 + n2) s (a ++ b) =
    let p := crun n1 s a in let q := crun n2 (fst p) b in (fst q, snd p ++ snd q).
  Proof.
    revert s a. induction n1 as [|n1 IH]; intros s a H.
    - destruct a; [|discriminate H]. cbn. now destruct (crun n2 s b).
    - cbn [Nat.add crun]. cbn [Nat.mul] in H.
      rewrite firstn_app, skipn_app. replace (bs - length a) with 0 by lia. cbn [firstn skipn]. rewrite app_nil_r.
      rewrite IH by (rewrite skipn_length; lia). cbn [fst snd]. now rewrite app_assoc.
  Qed.

  Variable Inv : S -> Prop.
  Hypothesis Hstep : forall s x, Inv s -> blk bs x -> Inv (fst (step s x)) /\ blk bs (snd (step s x)).

  Lemma bytes_split n m l : bytes_ok l -> length l = n + m ->
    blk n (firstn n l) /\ bytes_ok (skipn n l) /\ length (skipn n l) = m.
  Proof.
    intros Hb Hl. rewrite <- (firstn_skipn n l) in Hb. apply bytes_app in Hb. destruct Hb as [H1 H2].
    repeat split; try assumption; [rewrite firstn_length|rewrite skipn_length]; lia.
  Qed.

  Lemma crun_ok n s l : Inv s -> bytes_ok l -> length l = n * bs ->
    Inv (fst (crun n s l)) /\ blk (n * bs) (snd (crun n s l)).
  Proof.
    revert s l. induction n as [|n IH]; intros s l Hs Hb Hl; cbn [crun Nat.mul].
    - split; [exact Hs|]. split; [reflexivity|constructor].
    - destruct (bytes_split bs (n * bs) l Hb Hl) as (H1 & H2 & H3).
      destruct (Hstep s _ Hs H1) as [I1 [B1 B1']]. destruct (IH _ _ I1 H2 H3) as [I2 [B2 B2']].
      cbn [fst snd]. split; [exact I2|]. split; [rewrite app_length; lia|]. apply bytes_app. now split.
  Qed.

  Variables (src dst : nat) (turn : nat -> S * mem -> res (S * mem)).
  Hypothesis Hturn : forall o s m, buffers_ok src dst (o + bs) -> Inv s -> blk bs (rd m (src + o) bs) ->
    exists m', turn o (s, m) = Ok (fst (step s (rd m (src + o) bs)), m') /\
      rd m' (dst + o) bs = snd (step s (rd m (src + o) bs)) /\ frame m m' (dst + o) bs.

  Lemma block_loop n s m : buffers_ok src dst (n * bs) -> bytes_ok (rd m src (n * bs)) -> Inv s ->
    let R := crun n s (rd m src (n * bs)) in
    exists m', mfor n 0 (fun i => turn (i * bs)) (s, m) = Ok (fst R, m') /\
      rd m' dst (n * bs) = snd R /\ frame m m' dst (n * bs).
  Proof.
    intros Hb Hm Hs.
    assert (G : forall k i s (m1 : mem), i + k = n -> Inv s ->
      (forall x, src + i * bs <= x < src + n * bs -> m1 x = m x) ->
      let R := crun k s (rd m (src + i * bs) (k * bs)) in
      exists m', mfor k i (fun i => turn (i * bs)) (s, m1) = Ok (fst R, m') /\
        rd m' (dst + i * bs) (k * bs) = snd R /\ frame m1 m' (dst + i * bs) (k * bs)).
    { clear s Hs. induction k as [|k IH]; intros i s m1 Hi Hs Hm1.
      - exists m1. repeat split.
      - cbn [mfor crun Nat.mul].
        assert (L : i * bs + bs + k * bs = n * bs) by (subst n; rewrite Nat.mul_add_distr_r; lia).
        assert (E1 : rd m1 (src + i * bs) bs = rd m (src + i * bs) bs)
          by (apply rd_ext; intros x Hx; apply Hm1; lia).
        assert (B1 : blk bs (rd m (src + i * bs) bs)).
        { split; [apply length_rd|]. rewrite <- L, <- Nat.add_assoc, rd_app, rd_app in Hm.
          apply bytes_app in Hm. destruct Hm as [_ Hm]. apply bytes_app in Hm. apply Hm. }
        destruct (Hturn (i * bs) s m1) as (m2 & E2 & R2 & F2); [destruct Hb; [left|right]; lia|exact Hs|now rewrite E1|].
        rewrite E2. cbn [bind]. rewrite E1 in *.
        destruct (Hstep s _ Hs B1) as [I1 [O1 _]].
        destruct (IH (Datatypes.S i) (fst (step s (rd m (src + i * bs) bs))) m2) as (m3 & E3 & R3 & F3).
        + lia.
        + exact I1.
        + intros x Hx. cbn [Nat.mul] in Hx. rewrite F2; [apply Hm1; lia|]. destruct Hb; lia.
        + assert (X : firstn bs (rd m (src + i * bs) (bs + k * bs)) = rd m (src + i * bs) bs)
            by (rewrite rd_app, firstn_app, length_rd, Nat.sub_diag, app_nil_r, firstn_all2; [reflexivity|rewrite length_rd; lia]).
          assert (Y : skipn bs (rd m (src + i * bs) (bs + k * bs)) = rd m (src + Datatypes.S i * bs) (k * bs)).
          { rewrite rd_app, skipn_app, length_rd, Nat.sub_diag, skipn_all2 by (rewrite length_rd; lia).
            cbn [app skipn Nat.mul]. f_equal. lia. }
          rewrite X, Y. cbn [fst snd]. exists m3. split; [exact E3|]. split.
          * rewrite rd_app. f_equal.
            -- rewrite <- R2. apply rd_ext. intros x Hx. apply F3. cbn [Nat.mul]. lia.
            -- rewrite <- R3. f_equal. cbn [Nat.mul]. lia.
          * intros x Hx. rewrite F3 by (cbn [Nat.mul]; lia). apply F2. lia. }
    destruct (G n 0 s m) as (m' & E' & R' & F'); [lia|exact Hs|reflexivity|].
    cbn [Nat.mul] in *. rewrite !Nat.add_0_r in *. now exists m'.
  Qed.
End Blocks.

(** sessions of block loops *)
Lemma session_crun {S} bs (step : S -> list N -> S * list N) (Inv : S -> Prop)
    (op : S -> mem -> nat -> nat -> nat -> res (S * mem)) :
  0 < bs ->
  (forall s x, Inv s -> blk bs x -> Inv (fst (step s x)) /\ blk bs (snd (step s x))) ->
  (forall s m src dst n, buffers_ok src dst (n * bs) -> bytes_ok (rd m src (n * bs)) -> Inv s ->
    let R := crun bs step n s (rd m src (n * bs)) in
    exists m', op s m src dst (n * bs) = Ok (fst R, m') /\ rd m' dst (n * bs) = snd R /\ frame m m' dst (n * bs)) ->
  (forall s m src dst len p, op s m src dst len = Ok p -> len mod bs = 0) ->
  forall s inp s' out, Inv s -> session op s inp s' out ->
  exists n, length inp = n * bs /\ bytes_ok inp /\ (s', out) = crun bs step n s inp /\ Inv s'.
Proof.
  intros Hbs Hstep Hop Hmod s inp s' out Hs H. revert Hs.
  induction H as [s|s m src dst len s1 m1 inp s2 out Hb Hi E H IH]; intros Hs.
  - exists 0. repeat split; [constructor|exact Hs].
  - pose proof (Hmod _ _ _ _ _ _ E) as Hl.
    assert (L : len = len / bs * bs) by (rewrite (Nat.div_mod_eq len bs) at 1; rewrite Hl; lia).
    set (n1 := len / bs) in *. clearbody n1. subst len.
    destruct (Hop s m src dst n1 Hb Hi Hs) as (m' & E' & R & F).
    rewrite E in E'. apply Ok_inj in E'. injection E' as E1 E2. subst m'.
    destruct (crun_ok bs step Inv Hstep n1 s _ Hs Hi (length_rd _ _ _)) as [I1 _].
    rewrite <- E1 in I1. destruct (IH I1) as (n2 & L2 & B2 & E2 & I2).
    exists (n1 + n2). split; [rewrite app_length, length_rd, L2; lia|]. split; [apply bytes_app; now split|].
    split; [|exact I2]. rewrite crun_app by apply length_rd. cbn zeta. rewrite <- E1, <- E2, <- R. reflexivity.
Qed.
