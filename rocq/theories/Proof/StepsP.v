(** A check that the steps of a program do not depend on secrets, and its soundness. *)
From Coq Require Import NArith Arith List Bool Lia.
From Verif Require Import Lib.Word Spec.Steps.
Import ListNotations.

Definition isin (x : nat) (l : list nat) : bool := existsb (Nat.eqb x) l.
Definition subset (l l' : list nat) : bool := forallb (fun x => isin x l') l.

Section Check.
  Variable pa : nat -> bool.   (* arrays with public contents *)
  Variable may : list nat.     (* variables that may be public *)
  (** given the public variables: may the places it reads depend on public things only, and is its value public *)
  Fixpoint look (pv : list nat) (e : expr) : bool * bool := match e with
    | Lit _ => (true, true)
    | Var x => (true, isin x pv)
    | At a e => let '(o, p) := look pv e in (o && p, pa a)
    | Un _ e => look pv e
    | Bin _ e1 e2 => let '(o1, p1) := look pv e1 in let '(o2, p2) := look pv e2 in (o1 && o2, p1 && p2) end.
  (** the public variables afterwards; [out] are those that have to be public where a break leaves *)
  Fixpoint check (out pv : list nat) (c : stmt) : option (list nat) := match c with
    | Skip => Some pv
    | Break => if subset out pv then Some pv else None
    | Set_ x e => let '(o, p) := look pv e in if o then Some (if p && isin x may then x :: pv else filter (fun y => negb (Nat.eqb y x)) pv) else None
    | Put a i e => let '(o1, p1) := look pv i in let '(o2, p2) := look pv e in if o1 && p1 && o2 && (p2 || negb (pa a)) then Some pv else None
    | Seq c1 c2 => match check out pv c1 with Some pv1 => check out pv1 c2 | None => None end
    | If e c1 c2 => let '(o, p) := look pv e in if o && p then
        match check out pv c1, check out pv c2 with Some l1, Some l2 => Some (filter (fun x => isin x l2) l1) | _, _ => None end else None
    | While e c => let '(o, p) := look pv e in if o && p then
        match check pv pv c with Some l => if subset pv l then Some pv else None | None => None end else None end.
  Definition agree (pv : list nat) (s s' : state) : Prop :=
    (forall x, isin x pv = true -> vars s x = vars s' x) /\ (forall a i, pa a = true -> arrs s a i = arrs s' a i).

  Lemma agree_sub l l' s s' : subset l l' = true -> agree l' s s' -> agree l s s'.
  Proof.
    intros H [Av Aa]. split; [|exact Aa]. intros x Hx. apply Av. unfold isin in Hx. apply existsb_exists in Hx. destruct Hx as (y & Hy & E).
    apply Nat.eqb_eq in E. subst y. exact (proj1 (forallb_forall _ _) H x Hy).
  Qed.
  Lemma isin_filter f l x : isin x (filter f l) = true -> isin x l = true /\ f x = true.
  Proof.
    intros H. apply existsb_exists in H. destruct H as (y & Hy & E). apply Nat.eqb_eq in E. subst y. apply filter_In in Hy. destruct Hy as [Hy F].
    split; [|exact F]. apply existsb_exists. exists x. split; [exact Hy|apply Nat.eqb_refl].
  Qed.
  Lemma look_ok pv s s' e : agree pv s s' -> fst (look pv e) = true ->
    snd (eval s e) = snd (eval s' e) /\ (snd (look pv e) = true -> fst (eval s e) = fst (eval s' e)).
  Proof.
    intros [Av Aa]. induction e as [n|x|a e IH|o e IH|o e1 IH1 e2 IH2]; cbn [look eval fst snd]; intros H.
    - now split.
    - split; [reflexivity|]. apply Av.
    - destruct (look pv e) as [o p]. destruct (eval s e) as [i t], (eval s' e) as [i' t']. cbn [fst snd] in *.
      apply andb_prop in H. destruct H as [H1 H2]. destruct (IH H1) as [-> E]. rewrite (E H2). split; [reflexivity|]. intros H. now apply Aa.
    - destruct (look pv e) as [o' p]. destruct (eval s e) as [i t], (eval s' e) as [i' t']. cbn [fst snd] in *.
      destruct (IH H) as [-> E]. split; [reflexivity|]. intros H2. now rewrite (E H2).
    - destruct (look pv e1) as [o1 p1], (look pv e2) as [o2 p2]. destruct (eval s e1) as [i1 t1], (eval s' e1) as [i1' t1'], (eval s e2) as [i2 t2], (eval s' e2) as [i2' t2'].
      cbn [fst snd] in *. apply andb_prop in H. destruct H as [H1 H2]. destruct (IH1 H1) as [-> E1], (IH2 H2) as [-> E2].
      split; [reflexivity|]. intros H. apply andb_prop in H. destruct H as [P1 P2]. now rewrite (E1 P1), (E2 P2).
  Qed.
  (** same steps, and the public variables agree again: [l] at the end, [out] after a break *)
  Definition same (out l : list nat) (r r' : result) : Prop := match r, r' with
    | Some (s, t, b), Some (s', t', b') => agree (if b then out else l) s s' /\ t = t' /\ b = b' | None, None => True | _, _ => False end.
  Lemma same_sub out l l' r r' : (forall x, isin x l' = true -> isin x l = true) -> same out l r r' -> same out l' r r'.
  Proof.
    intros H. destruct r as [[[x y] b]|], r' as [[[x' y'] b']|]; cbn [same]; try (intros []; fail); [|intros; exact I].
    intros (G & W). split; [|exact W]. destruct b; [exact G|]. destruct G as [G1 G2]. split; [|exact G2]. intros z Hz. now apply G1, H.
  Qed.
  Lemma agree_var pv s s' x v v' (p : bool) : agree pv s s' -> (p = true -> v = v') ->
    agree (if p then x :: pv else filter (fun y => negb (Nat.eqb y x)) pv) (set_var s x v) (set_var s' x v').
  Proof.
    intros [Av Aa] H. split; [|exact Aa]. intros y Hy. cbn [vars set_var]. destruct p.
    - unfold isin in Hy. cbn [existsb] in Hy. destruct (Nat.eqb y x); [now apply H|]. cbn [orb] in Hy. now apply Av.
    - apply isin_filter in Hy. destruct Hy as [Hy N]. apply negb_true_iff in N. rewrite N. now apply Av.
  Qed.
  Lemma agree_arr pv s s' a i v v' : agree pv s s' -> (pa a = true -> v = v') -> agree pv (set_arr s a i v) (set_arr s' a i v').
  Proof.
    intros [Av Aa] H. split; [exact Av|]. intros b j Hb. cbn [arrs set_arr]. destruct (Nat.eqb_spec b a) as [->|_]; cbn [andb]; [|auto].
    destruct (Nat.eqb j i); auto.
  Qed.
  Lemma check_ok fuel c : forall out pv l, check out pv c = Some l -> forall s s', agree pv s s' -> same out l (exec fuel c s) (exec fuel c s').
  Proof.
    induction c as [|x e|a i e|c1 IH1 c2 IH2|e c1 IH1 c2 IH2|e c IH|]; cbn [check exec]; intros out pv l H s s' A.
    - injection H as <-. now split.
    - pose proof (look_ok pv s s' e A) as L. destruct (look pv e) as [o p], (eval s e) as [v t], (eval s' e) as [v' t']. cbn [fst snd] in L.
      destruct o; [|discriminate]. injection H as <-. destruct (L eq_refl) as [-> E]. split; [|now split]. apply agree_var; [exact A|]. intros P. apply andb_prop in P. apply E, P.
    - pose proof (look_ok pv s s' i A) as L1. pose proof (look_ok pv s s' e A) as L2.
      destruct (look pv i) as [o1 p1], (look pv e) as [o2 p2], (eval s i) as [n t1], (eval s' i) as [n' t1'], (eval s e) as [v t2], (eval s' e) as [v' t2'].
      cbn [fst snd] in L1, L2. destruct (o1 && p1 && o2 && (p2 || negb (pa a)))%bool eqn:H'; [|discriminate]. injection H as <-.
      apply andb_prop in H'. destruct H' as [H H4]. apply andb_prop in H. destruct H as [H H3]. apply andb_prop in H. destruct H as [H1 H2].
      destruct (L1 H1) as [-> E1], (L2 H3) as [-> E2]. rewrite (E1 H2). split; [|now split].
      apply agree_arr; [exact A|]. intros P. rewrite P, orb_false_r in H4. now apply E2.
    - destruct (check out pv c1) as [pv1|] eqn:C1; [|discriminate]. specialize (IH1 _ _ _ C1 s s' A).
      destruct (exec fuel c1 s) as [[[s1 t1] b1]|], (exec fuel c1 s') as [[[s1' t1'] b1']|]; cbn [same] in IH1; try contradiction; [|exact I].
      destruct IH1 as (A1 & -> & ->). destruct b1'; [now split|]. specialize (IH2 _ _ _ H s1 s1' A1).
      destruct (exec fuel c2 s1) as [[[s2 t2] b2]|], (exec fuel c2 s1') as [[[s2' t2'] b2']|]; cbn [same] in IH2; try contradiction; [|exact I].
      destruct IH2 as (A2 & -> & ->). now split.
    - pose proof (look_ok pv s s' e A) as L. destruct (look pv e) as [o p], (eval s e) as [v t], (eval s' e) as [v' t']. cbn [fst snd] in L.
      destruct (o && p)%bool eqn:H'; [|discriminate]. apply andb_prop in H'. destruct H' as [H1 H2].
      destruct (L H1) as [-> E]. rewrite (E H2). destruct (check out pv c1) as [l1|] eqn:C1; [|discriminate]. destruct (check out pv c2) as [l2|] eqn:C2; [|discriminate].
      injection H as <-.
      assert (X : same out (filter (fun x => isin x l2) l1) (exec fuel (if negb (v' =? 0)%N then c1 else c2) s) (exec fuel (if negb (v' =? 0)%N then c1 else c2) s')).
      { destruct (negb (v' =? 0)%N); [apply (same_sub out l1), (IH1 _ _ _ C1 s s' A)|apply (same_sub out l2), (IH2 _ _ _ C2 s s' A)]; intros z Hz; apply isin_filter in Hz; apply Hz. }
      destruct (exec fuel (if negb (v' =? 0)%N then c1 else c2) s) as [[[s1 t1] b1]|], (exec fuel (if negb (v' =? 0)%N then c1 else c2) s') as [[[s1' t1'] b1']|];
        cbn [same] in X; try contradiction; [|exact I].
      destruct X as (A1 & -> & ->). now split.
    - destruct (look pv e) as [o p] eqn:Le. destruct (o && p)%bool eqn:H'; [|discriminate]. apply andb_prop in H'. destruct H' as [H1 H2].
      destruct (check pv pv c) as [l1|] eqn:C; [|discriminate]. destruct (subset pv l1) eqn:U; [|discriminate]. injection H as <-.
      generalize fuel at 2 4. intros n. revert s s' A. induction n as [|n IHn]; intros s s' A; [exact I|]. cbn [turns].
      pose proof (look_ok pv s s' e A) as L. rewrite Le in L. destruct (eval s e) as [v t], (eval s' e) as [v' t']. cbn [fst snd] in L.
      destruct (L H1) as [-> E]. rewrite (E H2). destruct (v' =? 0)%N; [now split|].
      pose proof (IH _ _ _ C s s' A) as X.
      destruct (exec fuel c s) as [[[s1 t1] b1]|], (exec fuel c s') as [[[s1' t1'] b1']|]; cbn [same] in X; try contradiction; [|exact I].
      destruct X as (A1 & -> & ->). destruct b1'; [now split|]. specialize (IHn s1 s1' (agree_sub _ _ _ _ U A1)).
      match type of IHn with same _ _ ?a ?b => destruct a as [[[s2 t2] b2]|], b as [[[s2' t2'] b2']|] end; cbn [same] in IHn; try contradiction; [|exact I].
      destruct IHn as (A2 & -> & ->). now split.
    - destruct (subset out pv) eqn:U; [|discriminate]. split; [exact (agree_sub _ _ _ _ U A)|now split].
  Qed.
End Check.
