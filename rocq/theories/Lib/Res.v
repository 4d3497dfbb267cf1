(** Results with explicit undefined behaviour, arrays with bounds, C loops. *)
From Coq Require Import NArith Arith List Bool Lia.
From Verif Require Import Lib.Word.
Import ListNotations.

(** What can go wrong in a C execution. *)
Inductive err :=
| OobRead        (* read outside an array: undefined behaviour *)
| OobWrite       (* write outside an array: undefined behaviour *)
| UseAfterFree   (* access to a freed object: undefined behaviour *)
| DivZero        (* integer division by zero: undefined behaviour *)
| Uninit         (* result depends on uninitialised memory *)
| BadShift       (* shift by at least the width: undefined behaviour *)
| AssertFail     (* assert() fails, the program is aborted *)
| VlaZero        (* declaration of an array of length zero: undefined behaviour *)
| NullRet        (* the function returns NULL (or 0 / -1 for failure) *)
| Loops.         (* the C loop does not terminate *)

Inductive res (A : Type) := Ok (a : A) | Err (e : err).
Arguments Ok {A} a.
Arguments Err {A} e.

Definition bind {A B} (m : res A) (f : A -> res B) : res B :=
  match m with Ok a => f a | Err e => Err e end.
Notation "'let*' x ':=' m 'in' k" := (bind m (fun x => k))
  (at level 200, x name, m at level 100, k at level 200, right associativity).
Notation "'let*' ' p ':=' m 'in' k" := (bind m (fun p => k))
  (at level 200, p strict pattern, m at level 100, k at level 200, right associativity).

(** [assert(b)] *)
Definition assert_ {A} (b : bool) (k : res A) : res A := if b then k else Err AssertFail.

(** Array read. *)
Definition get {A} (l : list A) (i : nat) : res A :=
  match nth_error l i with Some a => Ok a | None => Err OobRead end.

(** Array update; the index is in range at every use (comment at the use). *)
Fixpoint upd {A} (l : list A) (i : nat) (x : A) : list A :=
  match l, i with
  | [], _ => []
  | _ :: t, O => x :: t
  | h :: t, S i' => h :: upd t i' x
  end.

(** Array write with bounds. *)
Definition put {A} (l : list A) (i : nat) (x : A) : res (list A) :=
  if i <? length l then Ok (upd l i x) else Err OobWrite.

(** [for(j = i; j < i + n; j++) x = f j x] *)
Fixpoint mfor {A} (n i : nat) (f : nat -> A -> res A) (x : A) : res A :=
  match n with
  | O => Ok x
  | S n' => let* y := f i x in mfor n' (S i) f y
  end.

(** [for(j = n; j--;) x = f j x] *)
Fixpoint mford {A} (n : nat) (f : nat -> A -> res A) (x : A) : res A :=
  match n with
  | O => Ok x
  | S n' => let* y := f n' x in mford n' f y
  end.

Fixpoint pfor {A} (n i : nat) (f : nat -> A -> A) (x : A) : A :=
  match n with
  | O => x
  | S n' => pfor n' (S i) f (f i x)
  end.

Fixpoint pford {A} (n : nat) (f : nat -> A -> A) (x : A) : A :=
  match n with
  | O => x
  | S n' => pford n' f (f n' x)
  end.

(** ** Lemmas *)

Lemma Ok_inj {A} (a b : A) : Ok a = Ok b -> a = b.
Proof. now intros [= ->]. Qed.

Lemma bind_ok {A B} (m : res A) (f : A -> res B) b :
  bind m f = Ok b -> exists a, m = Ok a /\ f a = Ok b.
Proof. destruct m as [a|e]; cbn; intros H; [eauto|discriminate]. Qed.

Lemma bind_assoc {A B C} (m : res A) (f : A -> res B) (g : B -> res C) :
  bind (bind m f) g = bind m (fun x => bind (f x) g).
Proof. now destruct m. Qed.

Lemma get_ok {A} (l : list A) i d : i < length l -> get l i = Ok (nth i l d).
Proof.
  intros H. unfold get. now rewrite (nth_error_nth' l d H).
Qed.

Lemma get_err {A} (l : list A) i : length l <= i -> get l i = Err OobRead.
Proof. intros H. unfold get. now rewrite (proj2 (nth_error_None l i) H). Qed.

Lemma length_upd {A} (l : list A) i x : length (upd l i x) = length l.
Proof. revert i; induction l as [|h t IH]; intros [|i]; cbn; auto. Qed.

Lemma Forall_upd {A} (P : A -> Prop) l i x : Forall P l -> P x -> Forall P (upd l i x).
Proof.
  intros H Hx. revert i. induction H as [|h t Hh Ht IH]; intros [|i]; cbn; auto.
Qed.

Lemma nth_upd {A} (l : list A) i x d j :
  nth j (upd l i x) d = if (Nat.eqb j i && (i <? length l)%nat)%bool then x else nth j l d.
Proof.
  revert i j; induction l as [|h t IH]; intros [|i] [|j]; cbn [upd nth length]; try reflexivity.
  - now rewrite andb_false_r.
  - rewrite IH. cbn [Nat.eqb].
    destruct (Nat.ltb_spec i (length t)), (Nat.ltb_spec (S i) (S (length t))); try lia; reflexivity.
Qed.

Lemma mfor_pure {A} (P : A -> Prop) n i f g x :
  (forall j y, i <= j < i + n -> P y -> f j y = Ok (g j y) /\ P (g j y)) ->
  P x -> mfor n i f x = Ok (pfor n i g x) /\ P (pfor n i g x).
Proof.
  revert i x. induction n as [|n IH]; intros i x Hf Hx; cbn [mfor pfor].
  - now split.
  - destruct (Hf i x) as [E Hy]; [lia|exact Hx|]. rewrite E. cbn [bind].
    apply IH; [|exact Hy]. intros j y Hj. apply Hf. lia.
Qed.

Lemma mford_pure {A} (P : A -> Prop) n f g x :
  (forall j y, j < n -> P y -> f j y = Ok (g j y) /\ P (g j y)) ->
  P x -> mford n f x = Ok (pford n g x) /\ P (pford n g x).
Proof.
  revert x. induction n as [|n IH]; intros x Hf Hx; cbn [mford pford].
  - now split.
  - destruct (Hf n x) as [E Hy]; [lia|exact Hx|]. rewrite E. cbn [bind].
    apply IH; [|exact Hy]. intros j y Hj. apply Hf. lia.
Qed.

Lemma mfor_inv {A} (P : nat -> A -> Prop) n i f x :
  (forall j y, i <= j < i + n -> P j y -> exists z, f j y = Ok z /\ P (S j) z) ->
  P i x -> exists z, mfor n i f x = Ok z /\ P (i + n)%nat z.
Proof.
  revert i x. induction n as [|n IH]; intros i x Hf Hx; cbn [mfor].
  - exists x. rewrite Nat.add_0_r. now split.
  - destruct (Hf i x) as (y & E & Hy); [lia|exact Hx|]. rewrite E. cbn [bind].
    destruct (IH (S i) y) as (z & E2 & Hz); [|exact Hy|].
    + intros j w Hj. apply Hf. lia.
    + exists z. split; [exact E2|]. now replace (i + S n) with (S i + n) by lia.
Qed.

Lemma pfor_inv {A} (P : nat -> A -> Prop) n i f x :
  (forall j y, i <= j < i + n -> P j y -> P (S j) (f j y)) ->
  P i x -> P (i + n)%nat (pfor n i f x).
Proof.
  revert i x. induction n as [|n IH]; intros i x Hf Hx; cbn [pfor].
  - now rewrite Nat.add_0_r.
  - replace (i + S n) with (S i + n) by lia. apply IH.
    + intros j w Hj. apply Hf. lia.
    + apply Hf; [lia|exact Hx].
Qed.

Lemma mfor_ext {A} n i (f g : nat -> A -> res A) x :
  (forall j y, i <= j < i + n -> f j y = g j y) -> mfor n i f x = mfor n i g x.
Proof.
  revert i x. induction n as [|n IH]; intros i x H; cbn [mfor]; [reflexivity|].
  rewrite H by lia. destruct (g i x) as [y|e]; cbn [bind]; [|reflexivity].
  apply IH. intros j z Hj. apply H. lia.
Qed.

Lemma pfor_ext {A} n i (f g : nat -> A -> A) x :
  (forall j y, i <= j < i + n -> f j y = g j y) -> pfor n i f x = pfor n i g x.
Proof.
  revert i x. induction n as [|n IH]; intros i x H; cbn [pfor]; [reflexivity|].
  rewrite H by lia. apply IH. intros j z Hj. apply H. lia.
Qed.

Lemma mfor_app {A} n m i (f : nat -> A -> res A) x :
  mfor (n + m) i f x = bind (mfor n i f x) (mfor m (i + n)%nat f).
Proof.
  revert i x. induction n as [|n IH]; intros i x; cbn [mfor Nat.add bind].
  - now rewrite Nat.add_0_r.
  - rewrite bind_assoc. destruct (f i x) as [y|e]; cbn [bind]; [|reflexivity].
    rewrite IH. now replace (S i + n) with (i + S n) by lia.
Qed.

Lemma pfor_app {A} n m i (f : nat -> A -> A) x :
  pfor (n + m) i f x = pfor m (i + n)%nat f (pfor n i f x).
Proof.
  revert i x. induction n as [|n IH]; intros i x; cbn [pfor Nat.add].
  - now rewrite Nat.add_0_r.
  - rewrite IH. now replace (S i + n) with (i + S n) by lia.
Qed.

Lemma mfor_S {A} n i (f : nat -> A -> res A) x :
  mfor (S n) i f x = bind (mfor n i f x) (f (i + n)%nat).
Proof.
  replace (S n) with (n + 1) by lia. rewrite mfor_app.
  destruct (mfor n i f x) as [y|e]; cbn [bind mfor]; [|reflexivity].
  now destruct (f (i + n)%nat y).
Qed.

Lemma pfor_S {A} n i (f : nat -> A -> A) x :
  pfor (S n) i f x = f (i + n)%nat (pfor n i f x).
Proof. replace (S n) with (n + 1) by lia. now rewrite pfor_app. Qed.

Lemma mfor_Ok {A} n i (f : nat -> A -> A) x : mfor n i (fun j y => Ok (f j y)) x = Ok (pfor n i f x).
Proof. revert i x; induction n as [|n IH]; intros i x; cbn; auto. Qed.
Lemma mford_Ok {A} n (f : nat -> A -> A) x : mford n (fun j y => Ok (f j y)) x = Ok (pford n f x).
Proof. revert x; induction n as [|n IH]; intros x; cbn; auto. Qed.

(** ** Functions that undo each other *)

(** On the set [P], [f] succeeds, stays in [Q], and [g] brings the argument back. *)
Definition inv_on {A B} (P : A -> Prop) (Q : B -> Prop) (f : A -> res B) (g : B -> res A) : Prop :=
  forall x, P x -> exists y, f x = Ok y /\ Q y /\ g y = Ok x.

Definition bij_on {A B} (P : A -> Prop) (Q : B -> Prop) (f : A -> res B) (g : B -> res A) : Prop :=
  inv_on P Q f g /\ inv_on Q P g f.

Lemma bij_sym {A B} (P : A -> Prop) (Q : B -> Prop) f g : bij_on P Q f g -> bij_on Q P g f.
Proof. intros [H1 H2]. now split. Qed.

Lemma inv_comp {A B C} (P : A -> Prop) (Q : B -> Prop) (R : C -> Prop) f f' g g' :
  inv_on P Q f f' -> inv_on Q R g g' ->
  inv_on P R (fun x => bind (f x) g) (fun z => bind (g' z) f').
Proof.
  intros Hf Hg x Hx. destruct (Hf x Hx) as (y & E1 & Hy & E2).
  destruct (Hg y Hy) as (z & E3 & Hz & E4). exists z.
  rewrite E1, E4. cbn [bind]. auto.
Qed.

Lemma bij_comp {A B C} (P : A -> Prop) (Q : B -> Prop) (R : C -> Prop) f f' g g' :
  bij_on P Q f f' -> bij_on Q R g g' ->
  bij_on P R (fun x => bind (f x) g) (fun z => bind (g' z) f').
Proof.
  intros [H1 H2] [H3 H4]. split; [now apply inv_comp with Q|].
  now apply inv_comp with (Q := Q).
Qed.

Lemma inv_pure {A B} (P : A -> Prop) (Q : B -> Prop) f g :
  (forall x, P x -> Q (f x) /\ g (f x) = x) ->
  inv_on P Q (fun x => Ok (f x)) (fun y => Ok (g y)).
Proof. intros H x Hx. destruct (H x Hx) as [Hq E]. exists (f x). rewrite E. auto. Qed.

Lemma bij_pure {A B} (P : A -> Prop) (Q : B -> Prop) f g :
  (forall x, P x -> Q (f x) /\ g (f x) = x) ->
  (forall y, Q y -> P (g y) /\ f (g y) = y) ->
  bij_on P Q (fun x => Ok (f x)) (fun y => Ok (g y)).
Proof. intros H1 H2. split; now apply inv_pure. Qed.

Lemma inv_ext {A B} (P : A -> Prop) (Q : B -> Prop) f f' g g' :
  (forall x, P x -> f x = f' x) -> (forall y, Q y -> g y = g' y) ->
  inv_on P Q f g -> inv_on P Q f' g'.
Proof.
  intros Hf Hg H x Hx. destruct (H x Hx) as (y & E1 & Hy & E2). exists y.
  rewrite <- Hf by exact Hx. rewrite <- Hg by exact Hy. auto.
Qed.

Lemma bij_ext {A B} (P : A -> Prop) (Q : B -> Prop) f f' g g' :
  (forall x, P x -> f x = f' x) -> (forall y, Q y -> g y = g' y) ->
  bij_on P Q f g -> bij_on P Q f' g'.
Proof. intros Hf Hg [H1 H2]. split; eapply inv_ext; eauto. Qed.

(** An upward loop and the downward loop with inverse bodies. *)
Lemma inv_loop {A} (P : A -> Prop) n (f g : nat -> A -> res A) :
  (forall j, j < n -> inv_on P P (f j) (g j)) ->
  inv_on P P (mfor n 0 f) (mford n g).
Proof.
  induction n as [|n IH]; intros H x Hx.
  - exists x. cbn. auto.
  - destruct (IH ltac:(intros j Hj; apply H; lia) x Hx) as (y & E1 & Hy & E2).
    destruct (H n ltac:(lia) y Hy) as (z & E3 & Hz & E4).
    exists z. rewrite mfor_S, E1. cbn [bind mford Nat.add]. rewrite E4. cbn [bind]. auto.
Qed.

Lemma inv_loop_down {A} (P : A -> Prop) n (f g : nat -> A -> res A) :
  (forall j, j < n -> inv_on P P (g j) (f j)) ->
  inv_on P P (mford n g) (mfor n 0 f).
Proof.
  induction n as [|n IH]; intros H x Hx.
  - exists x. cbn. auto.
  - destruct (H n ltac:(lia) x Hx) as (y & E3 & Hy & E4).
    destruct (IH ltac:(intros j Hj; apply H; lia) y Hy) as (z & E1 & Hz & E2).
    exists z. rewrite mfor_S. cbn [bind mford Nat.add]. rewrite E3, E2. cbn [bind]. auto.
Qed.

Lemma bij_loop {A} (P : A -> Prop) n (f g : nat -> A -> res A) :
  (forall j, j < n -> bij_on P P (f j) (g j)) ->
  bij_on P P (mfor n 0 f) (mford n g).
Proof.
  intros H. split; [apply inv_loop|apply inv_loop_down]; intros j Hj; apply H, Hj.
Qed.

(** The same with an offset: indexes [i, i+n). *)
Lemma mfor_shift {A} n i (f : nat -> A -> res A) x :
  mfor n i f x = mfor n 0 (fun j => f (i + j)%nat) x.
Proof.
  enough (G : forall k, mfor n (i + k) f x = mfor n k (fun j => f (i + j)%nat) x).
  { specialize (G 0%nat). now rewrite Nat.add_0_r in G. }
  revert x. induction n as [|n IH]; intros x k; cbn [mfor]; [reflexivity|].
  destruct (f (i + k)%nat x) as [y|e]; cbn [bind]; [|reflexivity].
  replace (S (i + k)) with (i + S k) by lia. apply IH.
Qed.

Global Opaque bind.
Lemma bind_Ok {A B} (a : A) (f : A -> res B) : bind (Ok a) f = f a.
Proof. reflexivity. Qed.
Lemma bind_Err {A B} e (f : A -> res B) : bind (Err e) f = Err e.
Proof. reflexivity. Qed.
Global Transparent bind.
