(** From bijections on word vectors to the user level statements. *)
From Coq Require Import NArith List Bool Lia Arith.
From Verif Require Import Lib.Word Lib.Res Lib.Bytes Model.BlockApi Spec.Block.

Lemma perm_of_bij n E D : bij_on (blk n) (blk n) E D -> permutation n E D.
Proof.
  intros [H1 H2]. split.
  - intros pt Hl Hb. destruct (H1 pt (conj Hl Hb)) as (ct & E1 & [Hc1 Hc2] & E2). eauto 6.
  - intros pt Hl Hb. destruct (H2 pt (conj Hl Hb)) as (ct & E1 & [Hc1 Hc2] & E2). eauto 6.
Qed.

Lemma key_len_ok_true maxkey key : key_ok maxkey key -> key_len_ok maxkey key = true.
Proof.
  intros [_ [H1 H2]]. unfold key_len_ok. apply andb_true_intro. split.
  - now apply Nat.ltb_lt.
  - now apply Nat.leb_le.
Qed.

Lemma assert_true {A} b (k : res A) : b = true -> assert_ b k = k.
Proof. now intros ->. Qed.

Lemma fits_ok {A} need room (k : res A) : (need <= room)%N -> fits need room k = k.
Proof. intros H. unfold fits. now rewrite (proj2 (N.leb_le _ _) H). Qed.

Lemma room_shl r s : (r * 2 ^ s < 2 ^ 32)%N -> (r <= wshl 32 r s / 2 ^ s)%N.
Proof.
  intros H. unfold wshl. rewrite mask_id by (unfold inw; now rewrite N.shiftl_mul_pow2).
  rewrite N.shiftl_mul_pow2, N.div_mul by (apply N.pow_nonzero; discriminate). apply N.le_refl.
Qed.

Lemma room_mul r k : (k <> 0 -> r * k < 2 ^ 32 -> r <= mask 32 (r * k) / k)%N.
Proof.
  intros Hk H. rewrite mask_id by exact H. rewrite N.div_mul by exact Hk. apply N.le_refl.
Qed.

(** A loop whose body reads the key array at index [j]. *)
Lemma bij_get {A B} (P : A -> Prop) (Q : B -> Prop) ks i d (f : N -> A -> res B) g :
  (i < length ks)%nat -> bij_on P Q (f (nth i ks d)) (g (nth i ks d)) ->
  bij_on P Q (fun y => let* k := get ks i in f k y) (fun y => let* k := get ks i in g k y).
Proof.
  intros Hi. apply bij_ext; intros x _; now rewrite (get_ok ks i d Hi).
Qed.

Lemma bij_seq {A B C} (P : A -> Prop) (Q : B -> Prop) (R : C -> Prop) f f' g g' F G :
  bij_on P Q f f' -> bij_on Q R g g' ->
  (forall x, P x -> F x = bind (f x) g) -> (forall z, R z -> G z = bind (g' z) f') ->
  bij_on P R F G.
Proof.
  intros H1 H2 HF HG. eapply bij_ext; [| |exact (bij_comp P Q R f f' g g' H1 H2)].
  - intros x Hx. symmetry. now apply HF.
  - intros z Hz. symmetry. now apply HG.
Qed.

Lemma bij_swap w : bij_on (@w2 w) (@w2 w) (fun x => Ok (snd x, fst x)) (fun x => Ok (snd x, fst x)).
Proof. apply bij_pure; intros [a b] [Ha Hb]; (split; [split; assumption|reflexivity]). Qed.

Lemma inw_4 w a b c d : @w4 w (a, b, c, d) -> inw w a /\ inw w b /\ inw w c /\ inw w d.
Proof. exact (fun H => H). Qed.

Ltac gets := repeat (rewrite (get_ok _ _ 0%N) by (cbn [length]; lia); cbn [bind]).

(** Rounds [A 0, B 0, A 1, B 1, .., B (n-1), A n] undone in the order
    [A n, (B (n-1), A (n-1)), ..]; in C the inverse loop groups them differently. *)
Lemma mford_regroup {X} n (A' B' : nat -> X -> res X) x :
  (let* y := mford n (fun j z => let* u := A' (S j) z in B' j u) x in A' 0%nat y) =
  (let* y := A' n x in mford n (fun j z => let* u := B' j z in A' j u) y).
Proof.
  revert x. induction n as [|n IH]; intros x; cbn [mford bind].
  - now destruct (A' 0%nat x).
  - destruct (A' (S n) x) as [u|e]; cbn [bind]; [|reflexivity].
    destruct (B' n u) as [v|e]; cbn [bind]; [|reflexivity]. apply IH.
Qed.

Lemma bij_alt {X} (P : X -> Prop) n (A A' B B' : nat -> X -> res X) :
  (forall j, (j <= n)%nat -> bij_on P P (A j) (A' j)) ->
  (forall j, (j < n)%nat -> bij_on P P (B j) (B' j)) ->
  bij_on P P (fun x => let* y := mfor n 0 (fun j z => let* u := A j z in B j u) x in A n y)
    (fun x => let* y := mford n (fun j z => let* u := A' (S j) z in B' j u) x in A' 0%nat y).
Proof.
  intros HA HB. eapply bij_ext; [reflexivity|intros y _; symmetry; apply mford_regroup|].
  apply bij_comp with (Q := P); [|apply HA; lia].
  apply bij_loop. intros j Hj. apply bij_comp with (Q := P); [apply HA; lia|now apply HB].
Qed.
