(** Pure permutations of a set [P] and how they compose. *)
From Coq Require Import NArith Arith List Bool Lia.
From Verif Require Import Lib.Word Lib.Res Lib.Bytes.
Import ListNotations.

Definition pinv {A} (P : A -> Prop) (f g : A -> A) : Prop := forall x, P x -> P (f x) /\ g (f x) = x.
Definition pbij {A} (P : A -> Prop) (f g : A -> A) : Prop := pinv P f g /\ pinv P g f.

Lemma pbij_bij {A} (P : A -> Prop) f g : pbij P f g -> bij_on P P (fun x => Ok (f x)) (fun x => Ok (g x)).
Proof. intros [H1 H2]. now apply bij_pure. Qed.

Lemma pbij_sym {A} (P : A -> Prop) f g : pbij P f g -> pbij P g f.
Proof. intros [H1 H2]. now split. Qed.

Lemma pbij_id {A} (P : A -> Prop) : pbij P (fun x => x) (fun x => x).
Proof. split; intros x Hx; auto. Qed.

Lemma pinv_comp {A} (P : A -> Prop) f f' g g' :
  pinv P f f' -> pinv P g g' -> pinv P (fun x => g (f x)) (fun x => f' (g' x)).
Proof.
  intros H1 H2 x Hx. destruct (H1 x Hx) as [Hf Ef]. destruct (H2 _ Hf) as [Hg Eg].
  split; [exact Hg|]. now rewrite Eg.
Qed.

Lemma pbij_comp {A} (P : A -> Prop) f f' g g' :
  pbij P f f' -> pbij P g g' -> pbij P (fun x => g (f x)) (fun x => f' (g' x)).
Proof. intros [H1 H2] [H3 H4]. split; now apply pinv_comp. Qed.

Lemma pbij_ext {A} (P : A -> Prop) f f' g g' :
  (forall x, P x -> f x = f' x) -> (forall x, P x -> g x = g' x) -> pbij P f g -> pbij P f' g'.
Proof.
  intros Hf Hg [H1 H2]. split; intros x Hx.
  - destruct (H1 x Hx) as [H E]. rewrite <- (Hf x Hx). split; [exact H|]. now rewrite <- Hg.
  - destruct (H2 x Hx) as [H E]. rewrite <- (Hg x Hx). split; [exact H|]. now rewrite <- Hf.
Qed.

Lemma pbij_loop {A} (P : A -> Prop) n (f g : nat -> A -> A) :
  (forall j, (j < n)%nat -> pbij P (f j) (g j)) -> pbij P (pfor n 0 f) (pford n g).
Proof.
  intros H.
  assert (B : bij_on P P (mfor n 0 (fun j y => Ok (f j y))) (mford n (fun j y => Ok (g j y)))).
  { apply bij_loop. intros j Hj. apply pbij_bij. now apply H. }
  destruct B as [B1 B2]. split; intros x Hx.
  - destruct (B1 x Hx) as (y & E1 & Hy & E2). rewrite mfor_Ok in E1. rewrite mford_Ok in E2.
    apply Ok_inj in E1. apply Ok_inj in E2. now subst y.
  - destruct (B2 x Hx) as (y & E1 & Hy & E2). rewrite mford_Ok in E1. rewrite mfor_Ok in E2.
    apply Ok_inj in E1. apply Ok_inj in E2. now subst y.
Qed.

(** Straight line code: a list of statements executed in order. *)
Definition prun {I A} (f : I -> A -> A) (l : list I) (x : A) : A := fold_left (fun y i => f i y) l x.

Lemma prun_app {I A} (f : I -> A -> A) l m x : prun f (l ++ m) x = prun f m (prun f l x).
Proof. apply fold_left_app. Qed.

Lemma pbij_run {I A} (P : A -> Prop) (f g : I -> A -> A) l :
  (forall i, In i l -> pbij P (f i) (g i)) -> pbij P (prun f l) (prun g (rev l)).
Proof.
  induction l as [|i l IH]; intros H; [apply pbij_id|].
  eapply pbij_ext; [| |apply (pbij_comp P (f i) (g i) (prun f l) (prun g (rev l)))].
  - reflexivity.
  - intros x _. cbn [rev]. rewrite prun_app. reflexivity.
  - apply H. now left.
  - apply IH. intros j Hj. apply H. now right.
Qed.

(** ** Register files *)

Lemma upd_upd {A} (l : list A) i a b : upd (upd l i a) i b = upd l i b.
Proof. revert i; induction l as [|h t IH]; intros [|i]; cbn; auto. now rewrite IH. Qed.

Lemma nth_upd_eq {A} (l : list A) i x d : (i < length l)%nat -> nth i (upd l i x) d = x.
Proof.
  revert i; induction l as [|h t IH]; intros [|i] H; cbn in *; auto; try lia. apply IH. lia.
Qed.
Lemma nth_upd_neq {A} (l : list A) i j x d : i <> j -> nth j (upd l i x) d = nth j l d.
Proof.
  revert i j; induction l as [|h t IH]; intros [|i] [|j] H; cbn; auto; try congruence.
Qed.

Definition regs (w : N) (n : nat) (x : list N) : Prop := length x = n /\ words_ok w x.

Lemma regs_nth w n x i : regs w n x -> inw w (nth i x 0%N).
Proof. intros [_ H]. now apply words_nth. Qed.
#[global] Hint Resolve regs_nth : wb.

Lemma regs_upd w n x i v : regs w n x -> inw w v -> regs w n (upd x i v).
Proof. intros [H1 H2] Hv. split; [now rewrite length_upd|now apply Forall_upd]. Qed.

(** A statement [x_d = F(x, x_d)] where [F] does not look at [x_d] otherwise. *)
Lemma pbij_reg w n d (F G : list N -> N -> N) : (d < n)%nat ->
  (forall x v u, F (upd x d v) u = F x u) ->
  (forall x v u, G (upd x d v) u = G x u) ->
  (forall x u, regs w n x -> inw w u -> inw w (F x u) /\ G x (F x u) = u) ->
  (forall x u, regs w n x -> inw w u -> inw w (G x u) /\ F x (G x u) = u) ->
  pbij (regs w n) (fun x => upd x d (F x (nth d x 0%N))) (fun x => upd x d (G x (nth d x 0%N))).
Proof.
  intros Hd HF HG H1 H2. split; intros x Hx.
  - destruct (H1 x (nth d x 0%N) Hx (regs_nth _ _ _ _ Hx)) as [I E].
    split; [now apply regs_upd|].
    rewrite nth_upd_eq by (destruct Hx; lia). rewrite HG, E, upd_upd. apply upd_same.
  - destruct (H2 x (nth d x 0%N) Hx (regs_nth _ _ _ _ Hx)) as [I E].
    split; [now apply regs_upd|].
    rewrite nth_upd_eq by (destruct Hx; lia). rewrite HF, E, upd_upd. apply upd_same.
Qed.

Lemma regs_wlist w n x : regs w n x <-> @wlist w n x.
Proof. reflexivity. Qed.

(** Split a vector of known length into its words. *)
Ltac list_cases H :=
  let L := fresh in let W := fresh in destruct H as [L W];
  repeat match type of L with
  | length ?x = S _ => destruct x; cbn [length] in L; [discriminate L|apply Nat.succ_inj in L]
  | length ?x = O => destruct x; [|discriminate L]
  end; clear L;
  repeat match goal with
  | W : words_ok _ (_ :: _) |- _ => unfold words_ok in W
  | W : Forall (inw _) (_ :: _) |- _ =>
      let a := fresh in pose proof (Forall_inv W) as a; apply Forall_inv_tail in W; cbv beta in a
  | W : Forall (inw _) [] |- _ => clear W
  end.

Ltac regs_list := split; [reflexivity|repeat (apply Forall_cons || apply Forall_nil); wb].

