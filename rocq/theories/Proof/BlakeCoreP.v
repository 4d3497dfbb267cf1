(** The round functions of BLAKE and BLAKE2 in the library are the published ones. *)
From Coq Require Import NArith Arith List Bool Lia.
From Verif Require Import Lib.Word Lib.Res Lib.Bytes Lib.WordSpec Lib.MemLemmas Lib.Lists Lib.WordsP Lib.Bij Model.LoadStore Model.HashApi Model.Md Model.BlockBuf Model.Blake
  Spec.Words Spec.Modes Spec.Hash Spec.Sha2 Spec.Blake Proof.LoadStoreP Proof.MdP Proof.Sha1P Proof.ChachaP.
Import ListNotations.
Local Open Scope N_scope.

Ltac explode16 x H := do 16 (destruct x as [|? x]; [discriminate H|]); destruct x; [|discriminate H].
Ltac explode4 x H := do 4 (destruct x as [|? x]; [discriminate H|]); destruct x; [|discriminate H].
Ltac explode8 x H := do 8 (destruct x as [|? x]; [discriminate H|]); destruct x; [|discriminate H].

Section Core.
  Variables (p : blakep) (F : blake_fn).
  Let w := bl_w F.
  Hypothesis Hw : bp_w p = w.
  Hypothesis Hrot : bp_rot p = bl_rot F.
  Hypothesis Hle : let '(r1, r2, r3, r4) := bl_rot F in r1 <= w /\ r2 <= w /\ r3 <= w /\ r4 <= w.

  (** the mixing function on values *)
  Definition gmix (a b c d x y : N) : N * N * N * N :=
    let '(r1, r2, r3, r4) := bl_rot F in
    let a := plus_w w (plus_w w a b) x in let d := rotr w (N.lxor d a) r1 in
    let c := plus_w w c d in let b := rotr w (N.lxor b c) r2 in
    let a := plus_w w (plus_w w a b) y in let d := rotr w (N.lxor d a) r3 in
    let c := plus_w w c d in let b := rotr w (N.lxor b c) r4 in
    (a, b, c, d).
  Lemma g_mix a b c d x y : inw w a -> inw w b -> inw w c -> inw w d ->
    bk_g p a b c d x y = gmix a b c d x y /\ (let '(a, b, c, d) := bk_g p a b c d x y in inw w a /\ inw w b /\ inw w c /\ inw w d).
  Proof.
    intros A B C D. unfold bk_g, gmix. rewrite Hrot, Hw. destruct (bl_rot F) as [[[r1 r2] r3] r4]. destruct Hle as (L1 & L2 & L3 & L4).
    split.
    - rewrite <- !plus_w_wadd, <- !wadd_assoc. rewrite <- !ror_rotr; [reflexivity|..]; assumption || wb.
    - repeat split; wb.
  Qed.
  (** half of the mixing function, on values and on the vector *)
  Definition ghalf (r1 r2 : N) (a b c d x : N) : N * N * N * N :=
    let a := plus_w w (plus_w w a b) x in let d := rotr w (N.lxor d a) r1 in
    let c := plus_w w c d in let b := rotr w (N.lxor b c) r2 in (a, b, c, d).
  Definition hmix (r1 r2 : N) (v : list N) (a b c d : nat) (x : N) : list N :=
    let v := upd v a (plus_w w (plus_w w (nth a v 0) (nth b v 0)) x) in
    let v := upd v d (rotr w (N.lxor (nth d v 0) (nth a v 0)) r1) in
    let v := upd v c (plus_w w (nth c v 0) (nth d v 0)) in
    upd v b (rotr w (N.lxor (nth b v 0) (nth c v 0)) r2).
  Definition put4 (v : list N) (a b c d : nat) (q : N * N * N * N) : list N :=
    let '(va, vb, vc, vd) := q in upd (upd (upd (upd v a va) b vb) c vc) d vd.
  Ltac calls H := unfold bk_calls in H; cbn [In] in H;
    destruct H as [H|[H|[H|[H|[H|[H|[H|[H|[]]]]]]]]]; injection H as <- <- <- <- <-.
  Lemma hmix_put r1 r2 a b c d e v x : In (a, b, c, d, e) bk_calls -> length v = 16%nat ->
    hmix r1 r2 v a b c d x = put4 v a b c d (ghalf r1 r2 (nth a v 0) (nth b v 0) (nth c v 0) (nth d v 0) x).
  Proof. intros H L. explode16 v L. unfold hmix, put4, ghalf. calls H; cbn [nth upd]; reflexivity. Qed.
  Lemma nth_put4 a b c d e v va vb vc vd : In (a, b, c, d, e) bk_calls -> length v = 16%nat ->
    nth a (put4 v a b c d (va, vb, vc, vd)) 0 = va /\ nth b (put4 v a b c d (va, vb, vc, vd)) 0 = vb /\
    nth c (put4 v a b c d (va, vb, vc, vd)) 0 = vc /\ nth d (put4 v a b c d (va, vb, vc, vd)) 0 = vd.
  Proof. intros H L. explode16 v L. unfold put4. calls H; cbn [nth upd]; auto. Qed.
  Lemma put4_put4 a b c d e v q q' : In (a, b, c, d, e) bk_calls -> length v = 16%nat ->
    put4 (put4 v a b c d q) a b c d q' = put4 v a b c d q'.
  Proof. intros H L. destruct q as [[[? ?] ?] ?], q' as [[[? ?] ?] ?]. explode16 v L. unfold put4. calls H; cbn [nth upd]; reflexivity. Qed.
  Lemma mixing_regs a b c d e v x y : In (a, b, c, d, e) bk_calls -> length v = 16%nat ->
    mixing F v a b c d x y =
    let '(va, vb, vc, vd) := gmix (nth a v 0) (nth b v 0) (nth c v 0) (nth d v 0) x y in upd (upd (upd (upd v a va) b vb) c vc) d vd.
  Proof.
    intros H L. unfold mixing, gmix. fold w. destruct (bl_rot F) as [[[r1 r2] r3] r4].
    change (hmix r3 r4 (hmix r1 r2 v a b c d x) a b c d y =
      put4 v a b c d (let '(a, b, c, d) := ghalf r1 r2 (nth a v 0) (nth b v 0) (nth c v 0) (nth d v 0) x in ghalf r3 r4 a b c d y)).
    rewrite (hmix_put r1 r2 a b c d e v x H L). destruct (ghalf r1 r2 _ _ _ _ _) as [[[va vb] vc] vd].
    rewrite (hmix_put r3 r4 a b c d e) by (exact H || (unfold put4; now rewrite !length_upd)).
    destruct (nth_put4 a b c d e v va vb vc vd H L) as (-> & -> & -> & ->). now rewrite (put4_put4 a b c d e).
  Qed.
  Variable add : nat -> nat -> N.
  Let inj (i j : nat) := (add i j, add j i).
  Lemma call_ok sg a b c d e v : In (a, b, c, d, e) bk_calls -> length v = 16%nat -> words_ok w v ->
    bk_call p inj sg v (a, b, c, d, e) = mixing F v a b c d (add (nth e sg 0%nat) (nth (e + 1) sg 0%nat)) (add (nth (e + 1) sg 0%nat) (nth e sg 0%nat)) /\
    length (bk_call p inj sg v (a, b, c, d, e)) = 16%nat /\ words_ok w (bk_call p inj sg v (a, b, c, d, e)).
  Proof.
    intros H L W. rewrite (mixing_regs a b c d e v _ _ H L). unfold bk_call, inj.
    destruct (g_mix (nth a v 0) (nth b v 0) (nth c v 0) (nth d v 0) (add (nth e sg 0%nat) (nth (e + 1) sg 0%nat))
      (add (nth (e + 1) sg 0%nat) (nth e sg 0%nat))) as [E O]; [now apply words_nth..|]. rewrite <- E.
    destruct (bk_g p _ _ _ _ _ _) as [[[va vb] vc] vd]. destruct O as (A & B & C & D). split; [reflexivity|].
    split; [now rewrite !length_upd|]. repeat apply words_upd; assumption.
  Qed.
  Lemma calls_ok sg cs v : (forall q, In q cs -> In q bk_calls) -> length v = 16%nat -> words_ok w v ->
    fold_left (bk_call p inj sg) cs v = fold_left (fun v q => let '(a, b, c, d, e) := q in
      mixing F v a b c d (add (nth e sg 0%nat) (nth (e + 1) sg 0%nat)) (add (nth (e + 1) sg 0%nat) (nth e sg 0%nat))) cs v /\
    length (fold_left (bk_call p inj sg) cs v) = 16%nat /\ words_ok w (fold_left (bk_call p inj sg) cs v).
  Proof.
    revert v. induction cs as [|q cs IH]; intros v H L W; [auto|]. cbn [fold_left]. destruct q as [[[[a b] c] d] e].
    destruct (call_ok sg a b c d e v (H _ (or_introl eq_refl)) L W) as (E & L1 & W1). rewrite <- E.
    apply IH; [intros q Hq; apply H; now right|assumption..].
  Qed.
  Lemma calls_mix (g : list N -> nat -> nat -> nat -> nat -> N -> N -> list N) (ad : nat -> nat -> N) sg v :
    fold_left (fun v q => let '(a, b, c, d, e) := q in g v a b c d (ad (nth e sg 0%nat) (nth (e + 1) sg 0%nat)) (ad (nth (e + 1) sg 0%nat) (nth e sg 0%nat))) bk_calls v =
    (let s j := nth j sg 0 in
     fold_left (fun v i => g v i (4 + (i + 1) mod 4) (8 + (i + 2) mod 4) (12 + (i + 3) mod 4)
      (ad (s (8 + 2 * i)) (s (8 + 2 * i + 1))) (ad (s (8 + 2 * i + 1)) (s (8 + 2 * i)))) (seq 0 4)
      (fold_left (fun v i => g v i (4 + i) (8 + i) (12 + i) (ad (s (2 * i)) (s (2 * i + 1))) (ad (s (2 * i + 1)) (s (2 * i)))) (seq 0 4) v))%nat.
  Proof. reflexivity. Qed.
  Lemma round_mix t v : length v = 16%nat -> words_ok w v ->
    fold_left (bk_call p inj (nth (t mod 10) bk_sigma [])) bk_calls v = mix_round F add v t /\
    length (mix_round F add v t) = 16%nat /\ words_ok w (mix_round F add v t).
  Proof.
    intros L W. destruct (calls_ok (nth (t mod 10) bk_sigma []) bk_calls v (fun _ H => H) L W) as (E & L1 & W1).
    rewrite (calls_mix (mixing F) add) in E.
    assert (E2 : fold_left (bk_call p inj (nth (t mod 10) bk_sigma [])) bk_calls v = mix_round F add v t) by exact E.
    rewrite <- E2. auto.
  Qed.
  Lemma rounds_mix r v : length v = 16%nat -> words_ok w v ->
    bk_rounds p inj r v = fold_left (mix_round F add) (seq 0 (N.to_nat r)) v /\
    length (bk_rounds p inj r v) = 16%nat /\ words_ok w (bk_rounds p inj r v).
  Proof.
    intros L W. unfold bk_rounds.
    pose proof (pfor_fold (fun t (y : list N * nat) u => fst y = u /\ length u = 16%nat /\ words_ok w u /\ (if Nat.eqb (snd y) 10 then 0%nat else snd y) = (t mod 10)%nat)
      (N.to_nat r) 0%nat (fun _ x => let i := if Nat.eqb (snd x) 10 then 0%nat else snd x in
        (fold_left (bk_call p inj (nth i bk_sigma [])) bk_calls (fst x), S i)) (mix_round F add) (v, 0%nat) v) as P. cbv beta in P.
    destruct P as (E & L1 & W1 & _).
    - intros t [y i] u _ (<- & Ly & Wy & Ei). cbn [fst snd] in *. cbv zeta. rewrite Ei. destruct (round_mix t y Ly Wy) as (E & L1 & W1).
      rewrite E. cbn [fst snd]. repeat split; try assumption.
      destruct (Nat.eqb_spec (S (t mod 10)) 10) as [H|H].
      + symmetry. replace (S t) with (S (t mod 10) + (t / 10) * 10)%nat by (rewrite (Nat.div_mod t 10) at 3 by lia; lia).
        rewrite Nat.mod_add by lia. rewrite H. reflexivity.
      + pose proof (Nat.mod_upper_bound t 10 ltac:(lia)).
        replace (S t) with (S (t mod 10) + (t / 10) * 10)%nat at 1 by (rewrite (Nat.div_mod t 10) at 3 by lia; lia).
        rewrite Nat.mod_add by lia. symmetry. apply Nat.mod_small. lia.
    - repeat split; assumption.
    - split; [exact E|]. split; [exact (eq_ind_r (fun z => length z = 16%nat) L1 E)|exact (eq_ind_r (words_ok w) W1 E)].
  Qed.
  Lemma length_xor_words a b : length a = length b -> length (xor_words a b) = length a.
  Proof. intros H. unfold xor_words. rewrite map_length, combine_length. lia. Qed.
End Core.
Lemma words_xor_words w a b : words_ok w a -> words_ok w b -> words_ok w (xor_words a b).
Proof.
  intros A B. apply Forall_forall. intros x Hx. apply in_map_iff in Hx. destruct Hx as ([u v] & <- & H). cbn [fst snd].
  unfold words_ok in *. rewrite Forall_forall in A, B. apply inw_lxor; [apply A; eapply in_combine_l; exact H|apply B; eapply in_combine_r; exact H].
Qed.
