(** RC4: the model computes the specified key stream and its table stays a permutation. *)
From Coq Require Import NArith Arith List Bool Lia Permutation.
From Verif Require Import Lib.Word Lib.Res Lib.Bytes Model.Mem Model.Modes Model.Rc4 Spec.Modes Spec.Rc4 Lib.MemLemmas Proof.ChachaP.
Import ListNotations.
Local Open Scope nat_scope.

(** a permutation of 0..255 *)
Definition perm256 (p : nat -> nat) : Prop :=
  (forall x, x < 256 -> p x < 256) /\ (forall x y, x < 256 -> y < 256 -> p x = p y -> x = y).
Lemma swap_perm p i j : perm256 p -> i < 256 -> j < 256 -> perm256 (swap p i j).
Proof.
  intros [B I] Hi Hj. split.
  - intros x Hx. unfold swap. destruct (x =? i); [auto|]. destruct (x =? j); auto.
  - intros x y Hx Hy. unfold swap.
    destruct (Nat.eqb_spec x i), (Nat.eqb_spec y i); subst; try tauto.
    + destruct (Nat.eqb_spec y j); intros E; apply I in E; lia.
    + destruct (Nat.eqb_spec x j); intros E; apply I in E; lia.
    + destruct (Nat.eqb_spec x j), (Nat.eqb_spec y j); intros E; apply I in E; lia.
Qed.
Lemma mod256 x : x mod 256 < 256.
Proof. apply Nat.mod_upper_bound. discriminate. Qed.

(** the list holds the function *)
Definition holds (l : list N) (p : nat -> nat) : Prop :=
  length l = 256 /\ (forall x, x < 256 -> nth x l 0%N = N.of_nat (p x)) /\ perm256 p.
Lemma holds_get l p x : holds l p -> x < 256 -> get l (N.to_nat (N.of_nat x)) = Ok (N.of_nat (p x)).
Proof.
  intros (L & E & _) Hx. rewrite Nat2N.id, (get_ok _ _ 0%N) by lia. now rewrite E.
Qed.
Lemma holds_swap l p i j : holds l p -> i < 256 -> j < 256 ->
  exists l', rc4_swap l (N.of_nat i) (N.of_nat j) = Ok l' /\ holds l' (swap p i j).
Proof.
  intros H Hi Hj. unfold rc4_swap. rewrite !(holds_get _ _ _ H) by assumption. cbn [bind]. rewrite !Nat2N.id.
  destruct H as (L & E & P). unfold put.
  rewrite L, (proj2 (Nat.ltb_lt _ _)) by lia. cbn [bind]. rewrite length_upd, L, (proj2 (Nat.ltb_lt _ _)) by lia. eexists. split; [reflexivity|].
  split; [now rewrite !length_upd|]. split; [|now apply swap_perm].
  intros x Hx. rewrite !nth_upd, length_upd, L. rewrite !(proj2 (Nat.ltb_lt _ 256)) by lia. rewrite !andb_true_r.
  unfold swap. destruct (Nat.eqb_spec x j), (Nat.eqb_spec x i); subst; auto.
Qed.
Lemma add8 a b : wadd 8 (N.of_nat a) (N.of_nat b) = N.of_nat ((a + b) mod 256).
Proof. rewrite wadd_mod, Nat2N.inj_mod, Nat2N.inj_add. reflexivity. Qed.

(** ** Key setup *)
Lemma ksa_ok key n : perm256 (fst (ksa key n)) /\ snd (ksa key n) < 256 \/ 256 < n.
Proof.
  induction n as [|n [[P J]|H]]; [|destruct (Nat.lt_ge_cases n 256) as [Hn|Hn]|].
  - left. cbn. split; [|lia]. split; auto.
  - left. cbn [ksa]. destruct (ksa key n) as [p j]. cbn [fst snd] in *. split; [|apply mod256].
    apply swap_perm; auto. apply mod256.
  - right. lia.
  - right. lia.
Qed.
Lemma key_index n l : l <> 0 -> (if S (n mod l) =? l then 0 else S (n mod l)) = S n mod l.
Proof.
  intros Hl. pose proof (Nat.mod_upper_bound n l Hl). pose proof (Nat.div_mod n l Hl).
  destruct (Nat.eqb_spec (S (n mod l)) l).
  - apply Nat.mod_unique with (q := S (n / l)); lia.
  - apply Nat.mod_unique with (q := n / l); lia.
Qed.
Lemma rc4_key_loop key n : key <> [] -> n <= 256 -> exists s,
  mfor n 0 (fun _ => rc4_key_step key) ({| rc4_p := map N.of_nat (seq 0 256); rc4_i := 0; rc4_j := 0 |}, 0)
    = Ok (s, n mod length key) /\
  holds (rc4_p s) (fst (ksa key n)) /\ rc4_i s = N.of_nat (n mod 256) /\ rc4_j s = N.of_nat (snd (ksa key n)).
Proof.
  intros Hk. assert (Lk : length key <> 0) by (now destruct key).
  induction n as [|n IH]; intros Hn.
  - eexists. split; [rewrite Nat.mod_0_l by exact Lk; reflexivity|]. split; [|split; reflexivity].
    split; [reflexivity|]. split; [|cbn; split; auto]. intros x Hx. cbn [rc4_p ksa fst].
    rewrite nth_indep with (d' := N.of_nat 0) by (rewrite map_length, seq_length; exact Hx).
    rewrite map_nth, seq_nth by exact Hx. reflexivity.
  - destruct (IH ltac:(lia)) as (s & E & H & Hi & Hj). rewrite mfor_S, E. cbn [bind].
    unfold rc4_key_step. destruct (ksa_ok key n) as [[_ J]|]; [|lia].
    rewrite Nat.mod_small in Hi by lia. rewrite Hi, Hj. rewrite (holds_get _ _ _ H) by lia. cbn [bind].
    rewrite (get_ok _ _ 0%N) by (now apply Nat.mod_upper_bound). cbn [bind].
    cbn [ksa]. destruct (ksa key n) as [p j]. cbn [fst snd] in *.
    set (kb := nth (n mod length key) key 0%N).
    assert (EJ : wadd 8 (wadd 8 (N.of_nat j) (N.of_nat (p n))) kb = N.of_nat ((j + p n + N.to_nat kb) mod 256)).
    { rewrite add8. transitivity (wadd 8 (N.of_nat ((j + p n) mod 256)) (N.of_nat (N.to_nat kb))); [now rewrite N2Nat.id|].
      rewrite add8, Nat.add_mod_idemp_l by discriminate. reflexivity. }
    rewrite EJ.
    set (j' := (j + p n + _) mod 256). assert (Hj' : j' < 256) by apply mod256. clearbody j'.
    destruct (holds_swap _ _ n j' H ltac:(lia) Hj') as (l' & -> & H'). cbn [bind].
    rewrite key_index by exact Lk. eexists. split; [reflexivity|]. cbn [rc4_p rc4_i rc4_j]. split; [exact H'|].
    split; [|reflexivity]. change 1%N with (N.of_nat 1). rewrite add8. now rewrite Nat.add_1_r.
Qed.

(** ** The stream *)
Section Stream.
  Variable p0 : nat -> nat.
  Definition rc4_at (n : nat) (s : rc4) : Prop :=
    let '(p, i, j) := prga p0 n in
    holds (rc4_p s) p /\ rc4_i s = N.of_nat i /\ rc4_j s = N.of_nat j /\ i < 256 /\ j < 256.
  Lemma rc4_next_ok n s : rc4_at n s -> exists s', rc4_next s = Ok (s', rc4_out p0 n) /\ rc4_at (S n) s'.
  Proof.
    unfold rc4_at, rc4_out. cbn [prga]. destruct (prga p0 n) as [[p i] j]. intros (H & Hi & Hj & Bi & Bj).
    unfold rc4_next. cbv zeta. rewrite Hi. change 1%N with (N.of_nat 1). rewrite add8.
    set (i' := (i + 1) mod 256). assert (Bi' : i' < 256) by apply mod256. clearbody i'.
    rewrite (holds_get _ _ _ H) by assumption. cbn [bind]. rewrite Hj, add8.
    set (j' := (j + p i') mod 256). assert (Bj' : j' < 256) by apply mod256. clearbody j'.
    destruct (holds_swap _ _ i' j' H Bi' Bj') as (l' & -> & H'). cbn [bind].
    rewrite (holds_get _ _ _ H' Bi'), (holds_get _ _ _ H' Bj'). cbn [bind]. rewrite add8.
    rewrite (holds_get _ _ _ H' (mod256 _)). cbn [bind]. eexists. split; [reflexivity|].
    cbn [rc4_p rc4_i rc4_j]. auto.
  Qed.
  Lemma rc4_step_ok n s b : rc4_at n s ->
    exists s', (let* p := rc4_next s in Ok (fst p, N.lxor b (snd p))) = Ok (s', N.lxor b (rc4_out p0 n)) /\ rc4_at (S n) s'.
  Proof. intros H. destruct (rc4_next_ok n s H) as (s' & -> & A). exists s'. auto. Qed.
  Lemma rc4_at_perm n s : rc4_at n s -> Permutation (rc4_p s) (map N.of_nat (seq 0 256)) /\ (rc4_i s < 256 /\ rc4_j s < 256)%N.
  Proof.
    unfold rc4_at. destruct (prga p0 n) as [[p i] j]. intros ((L & E & B & I) & Hi & Hj & Bi & Bj). split; [|rewrite Hi, Hj; lia].
    assert (EL : rc4_p s = map N.of_nat (map p (seq 0 256))).
    { apply nth_ext with (d := 0%N) (d' := 0%N).
      - now rewrite !map_length, seq_length.
      - intros x Hx. rewrite L in Hx. rewrite E by exact Hx.
        rewrite nth_indep with (d' := N.of_nat (p 0)) by (rewrite !map_length, seq_length; exact Hx).
        rewrite !map_nth, seq_nth by exact Hx. reflexivity. }
    rewrite EL. apply Permutation_map. apply NoDup_Permutation_bis.
    - clear - I.
      assert (G : forall l, (forall x, In x l -> x < 256) -> NoDup l -> NoDup (map p l)).
      { induction l as [|a l IH]; intros Hb Hn; [constructor|]. cbn [map]. inversion Hn; subst. constructor.
        - intros C. apply in_map_iff in C. destruct C as (y & Ey & Hy). apply I in Ey; [subst; contradiction| |].
          + apply Hb. now right. + apply Hb. now left.
        - apply IH; [intros x Hx; apply Hb; now right|assumption]. }
      apply G; [intros x Hx; apply in_seq in Hx; lia|apply seq_NoDup].
    - rewrite map_length. reflexivity.
    - intros y Hy. apply in_map_iff in Hy. destruct Hy as (x & <- & Hx). apply in_seq in Hx. apply in_seq.
      split; [lia|]. apply B. lia.
  Qed.
End Stream.
Opaque ksa.
Lemma rc4_skip key n : key <> [] -> exists s, rc4_start n key = Ok s /\ rc4_at (fst (ksa key 256)) (N.to_nat n) s.
Proof.
  intros Hk. unfold rc4_start, rc4_setup. destruct (rc4_key_loop key 256 Hk (le_n _)) as (s & E & H & _ & _).
  generalize dependent (fst (ksa key 256)). intros p0 H. rewrite E. clear E. cbn [bind fst]. set (s0 := {| rc4_p := rc4_p s; rc4_i := 0; rc4_j := 0 |}).
  assert (A : rc4_at p0 0 s0). { unfold rc4_at, s0. cbn [prga rc4_p rc4_i rc4_j]. split; [exact H|]. repeat split; lia. }
  induction (N.to_nat n) as [|m IH]; [exists s0; split; [reflexivity|exact A]|]. destruct IH as (s1 & E1 & A1). rewrite mfor_S, E1. cbn [bind].
  destruct (rc4_next_ok p0 m s1 A1) as (s2 & -> & A2). cbn [bind fst]. exists s2. split; [reflexivity|exact A2].
Qed.

Definition rc4_started (n : N) (key : list N) (s : rc4) : Prop :=
  rc4_create n key [] = Ok s \/ exists s0, rc4_recreate s0 n key [] = Ok s.
Lemma rc4_started_inv n key s : rc4_started n key s -> rc4_at (fst (ksa key 256)) (N.to_nat n) s.
Proof.
  intros [H|[s0 H]]; unfold rc4_create, rc4_recreate in H;
  (destruct (stream_args_ok rc4_maxkey 0 key []) eqn:Ea; [|discriminate]); cbn [assert_] in H;
  apply args_inv in Ea; (destruct (rc4_skip key n) as (s' & E & A); [destruct key; [cbn in Ea; lia|discriminate]|]);
  rewrite E in H; apply Ok_inj in H; now subst.
Qed.
Lemma rc4_create_total n key : 0 < length key <= 256 -> exists s, rc4_create n key [] = Ok s.
Proof.
  intros H. unfold rc4_create, stream_args_ok, rc4_maxkey. rewrite (proj2 (Nat.ltb_lt _ _)), (proj2 (Nat.leb_le _ _)) by lia.
  cbn [andb assert_ length Nat.leb]. destruct (rc4_skip key n) as (s & E & _); [destruct key; [cbn in H; lia|discriminate]|]. eauto.
Qed.
(** the stream after throwing away [n] bytes *)
Definition rc4_stream (n : N) (key : list N) (i : nat) : N := rc4_ks key (N.to_nat n + i).
Lemma xor_ks_shift ks k i l : xor_ks ks (k + i) l = xor_ks (fun j => ks (k + j)) i l.
Proof. revert i. induction l as [|b t IH]; intros i; [reflexivity|]. cbn [xor_ks]. now rewrite <- IH, plus_n_Sm. Qed.
Lemma map_seq_shift {A} (f : nat -> A) k n : map f (seq k n) = map (fun i => f (k + i)) (seq 0 n).
Proof.
  rewrite <- (Nat.add_0_r k) at 1. generalize 0 as i. induction n as [|n IH]; intros i; [reflexivity|]. cbn [seq map].
  f_equal. rewrite plus_n_Sm. apply IH.
Qed.
Lemma rc4_session n key s0 inp s out : rc4_started n key s0 -> session rc4_crypt s0 inp s out ->
  out = xor_ks (rc4_stream n key) 0 inp /\ Permutation (rc4_p s) (map N.of_nat (seq 0 256)) /\ (rc4_i s < 256 /\ rc4_j s < 256)%N /\
  call_safe rc4_crypt 1 s /\ gcall_safe rc4_prng s.
Proof.
  intros H0 HS. apply rc4_started_inv in H0.
  destruct (session_ks _ _ _ (rc4_step_ok (fst (ksa key 256))) _ _ _ _ _ H0 HS) as [-> B].
  split; [|split; [|split; [|split]]].
  - rewrite <- (Nat.add_0_r (N.to_nat n)). apply xor_ks_shift.
  - exact (proj1 (rc4_at_perm _ _ _ B)).
  - exact (proj2 (rc4_at_perm _ _ _ B)).
  - eapply (safe_ks _ _ _ (rc4_step_ok (fst (ksa key 256)))). exact B.
  - eapply (gsafe_ks _ _ _ (rc4_next_ok (fst (ksa key 256)))). exact B.
Qed.
Lemma rc4_gsession n key s0 s out : rc4_started n key s0 -> gsession rc4_prng s0 s out ->
  out = map (rc4_stream n key) (seq 0 (length out)) /\ Permutation (rc4_p s) (map N.of_nat (seq 0 256)) /\ (rc4_i s < 256 /\ rc4_j s < 256)%N /\
  call_safe rc4_crypt 1 s /\ gcall_safe rc4_prng s.
Proof.
  intros H0 HS. apply rc4_started_inv in H0.
  destruct (gsession_ks _ _ _ (rc4_next_ok (fst (ksa key 256))) _ _ _ _ H0 HS) as [E B].
  split; [|split; [|split; [|split]]].
  - rewrite E at 1. apply map_seq_shift.
  - exact (proj1 (rc4_at_perm _ _ _ B)).
  - exact (proj2 (rc4_at_perm _ _ _ B)).
  - eapply (safe_ks _ _ _ (rc4_step_ok (fst (ksa key 256)))). exact B.
  - eapply (gsafe_ks _ _ _ (rc4_next_ok (fst (ksa key 256)))). exact B.
Qed.
Lemma rc4_roundtrip n key s0 s0' inp s out s' back : rc4_started n key s0 -> rc4_started n key s0' ->
  session rc4_crypt s0 inp s out -> session rc4_crypt s0' out s' back -> back = inp.
Proof.
  intros H0 H0' HS HS'. destruct (rc4_session _ _ _ _ _ _ H0 HS) as [-> _]. destruct (rc4_session _ _ _ _ _ _ H0' HS') as [-> _].
  apply xor_ks_invol.
Qed.
