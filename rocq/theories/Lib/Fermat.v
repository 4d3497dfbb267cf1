(** Fermat's little theorem. *)
From Coq Require Import ZArith Znumtheory List Permutation Lia.
Import ListNotations.
Local Open Scope Z_scope.

Definition zprod (l : list Z) : Z := fold_right Z.mul 1 l.

Lemma zprod_perm a b : Permutation a b -> zprod a = zprod b.
Proof. unfold zprod. induction 1; cbn [fold_right]; lia. Qed.

Lemma zprod_map_mul p a l : p <> 0 ->
  zprod (map (fun i => (a * i) mod p) l) mod p = (a ^ Z.of_nat (length l) * zprod l) mod p.
Proof.
  intros Hp. induction l as [|x l IH]; [reflexivity|].
  cbn [map length zprod fold_right]. fold (zprod (map (fun i => (a * i) mod p) l)). fold (zprod l).
  rewrite Z.mul_mod, IH, Z.mod_mod, <- Z.mul_mod by exact Hp.
  rewrite Nat2Z.inj_succ, Z.pow_succ_r by lia. f_equal. ring.
Qed.

Lemma NoDup_map_on {A B} (f : A -> B) l :
  (forall x y, In x l -> In y l -> f x = f y -> x = y) -> NoDup l -> NoDup (map f l).
Proof.
  intros Hf H. induction H as [|x l Hx H IH]; cbn [map]; constructor.
  - intros Hin. apply in_map_iff in Hin. destruct Hin as (y & E & Hy).
    apply Hx. rewrite (Hf x y); [exact Hy|now left|now right|now symmetry].
  - apply IH. intros y z Hy Hz. apply Hf; now right.
Qed.

Section Fermat.
  Variable p : Z.
  Hypothesis Hp : prime p.

  Lemma prime_nz a b : 0 < a < p -> 0 < b < p -> (a * b) mod p <> 0.
  Proof.
    intros Ha Hb H. apply Z.mod_divide in H; [|lia]. apply prime_mult in H; [|exact Hp].
    destruct H as [H|H]; apply Z.divide_pos_le in H; lia.
  Qed.

  Lemma prod_ndiv l : Forall (fun x => 0 < x < p) l -> ~ (p | zprod l).
  Proof.
    destruct Hp as [H1 _]. induction 1 as [|x l Hx Hl IH]; cbn [zprod fold_right].
    - intros H. apply Z.divide_pos_le in H; lia.
    - fold (zprod l). intros H. apply prime_mult in H; [|exact Hp]. destruct H as [H|H]; [|now apply IH].
      apply Z.divide_pos_le in H; lia.
  Qed.

  Lemma fermat a : 0 < a < p -> a ^ (p - 1) mod p = 1.
  Proof.
    intros Ha. assert (H1 : 1 < p) by apply Hp.
    set (n := Z.to_nat (p - 1)). set (L := map Z.of_nat (seq 1 n)).
    assert (HL : forall x, In x L <-> 0 < x < p).
    { intros x. unfold L. rewrite in_map_iff. split.
      - intros (i & E & Hi). apply in_seq in Hi. subst n. lia.
      - intros Hx. exists (Z.to_nat x). split; [lia|]. apply in_seq. subst n. lia. }
    assert (ND : NoDup L).
    { apply NoDup_map_on; [intros; lia|apply seq_NoDup]. }
    assert (Len : length L = n) by (unfold L; now rewrite map_length, seq_length).
    set (f := fun i => (a * i) mod p).
    assert (P : Permutation (map f L) L).
    { apply NoDup_Permutation_bis.
      - apply NoDup_map_on; [|exact ND]. intros x y Hx Hy E. apply HL in Hx, Hy. unfold f in E.
        assert (D : (p | a * (x - y))).
        { apply Z.mod_divide; [lia|]. rewrite Z.mul_sub_distr_l, Zminus_mod, E, Z.sub_diag. apply Z.mod_0_l. lia. }
        apply prime_mult in D; [|exact Hp]. destruct D as [D|D].
        + apply Z.divide_pos_le in D; lia.
        + destruct D as [q Hq]. assert (q = 0) by nia. lia.
      - rewrite map_length. reflexivity.
      - intros x Hx. apply in_map_iff in Hx. destruct Hx as (y & E & Hy). apply HL in Hy. apply HL.
        unfold f in E. pose proof (prime_nz a y Ha Hy). pose proof (Z.mod_pos_bound (a * y) p). lia. }
    assert (E : (a ^ (p - 1) * zprod L) mod p = zprod L mod p).
    { replace (p - 1) with (Z.of_nat (length L)) by (rewrite Len; subst n; lia).
      rewrite <- (zprod_map_mul p a L) by lia. fold f. now rewrite (zprod_perm _ _ P). }
    assert (D : (p | zprod L * (a ^ (p - 1) - 1))).
    { apply Z.mod_divide; [lia|]. rewrite Z.mul_sub_distr_l, Z.mul_1_r, Zminus_mod, Z.mul_comm, E, Z.sub_diag.
      apply Z.mod_0_l. lia. }
    apply prime_mult in D; [|exact Hp]. destruct D as [D|D].
    - exfalso. apply (prod_ndiv L); [|exact D]. apply Forall_forall. intros x Hx. now apply HL.
    - replace (a ^ (p - 1)) with (1 + (a ^ (p - 1) - 1)) by lia. destruct D as [q Hq]. rewrite Hq.
      rewrite Z.mod_add by lia. apply Z.mod_1_l. lia.
  Qed.
End Fermat.

(** Trial division. *)
Lemma prime_trial p m : 1 < p -> p < (Z.of_nat m + 2) * (Z.of_nat m + 2) ->
  forallb (fun d => negb (p mod Z.of_nat d =? 0)) (seq 2 m) = true -> prime p.
Proof.
  intros Hp Hm C. rewrite forallb_forall in C.
  assert (ND : forall d, 1 < d -> d < Z.of_nat m + 2 -> ~ (d | p)).
  { intros d H1 H2 H. apply Z.mod_divide in H; [|lia].
    specialize (C (Z.to_nat d) ltac:(apply in_seq; lia)). rewrite Z2Nat.id in C by lia.
    rewrite H in C. discriminate. }
  apply prime_intro; [exact Hp|]. intros n Hn.
  apply Zgcd_1_rel_prime.
  pose proof (Z.gcd_nonneg n p) as G0. pose proof (Z.gcd_divide_r n p) as Gp. pose proof (Z.gcd_divide_l n p) as Gn.
  set (g := Z.gcd n p) in *.
  assert (g <> 0). { intros E. rewrite E in Gp. destruct Gp as [q Hq]. lia. }
  assert (g <= n) by (apply Z.divide_pos_le; [lia|exact Gn]).
  destruct (Z.eq_dec g 1) as [|G1]; [assumption|exfalso].
  destruct Gp as [q Hq].
  destruct (Z.lt_ge_cases g (Z.of_nat m + 2)) as [L|L].
  - apply (ND g); [lia|exact L|]. now exists q.
  - assert (1 < q) by nia. apply (ND q); [lia|nia|]. exists g. lia.
Qed.
