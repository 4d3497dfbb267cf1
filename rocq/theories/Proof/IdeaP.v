From Coq Require Import NArith ZArith Znumtheory Arith List Bool Lia.
From Verif Require Import Lib.Word Lib.Res Lib.Bytes Lib.BlockLemmas Lib.Bij Lib.Fermat Spec.Block
  Model.LoadStore Model.BlockApi Model.Idea.
Import ListNotations.
Local Open Scope N_scope.

Lemma prime_65537 : prime 65537.
Proof. apply (prime_trial 65537 255); [reflexivity|reflexivity|vm_compute; reflexivity]. Qed.

(** the residue a 16-bit word stands for *)
Definition iv (x : N) : Z := if x =? 0 then 65536%Z else Z.of_N x.

Lemma iv_range x : inw 16 x -> (0 < iv x < 65537)%Z.
Proof. unfold inw, iv. change (2 ^ 16) with 65536. intros H. destruct (N.eqb_spec x 0); lia. Qed.
Lemma iv_inj x y : inw 16 x -> inw 16 y -> iv x = iv y -> x = y.
Proof.
  unfold inw, iv. change (2 ^ 16) with 65536. intros Hx Hy.
  destruct (N.eqb_spec x 0), (N.eqb_spec y 0); lia.
Qed.

Lemma idea_mul_inw a b : inw 16 (idea_mul a b).
Proof. unfold idea_mul. cbv zeta. destruct (_ =? 0); wb. Qed.
#[local] Hint Resolve idea_mul_inw : wb.

Lemma wsub16 a b : inw 16 a -> inw 16 b -> wsub 16 a b = if b <=? a then a - b else a + 65536 - b.
Proof.
  unfold inw. change (2 ^ 16) with 65536. intros Ha Hb. unfold wsub. rewrite !mask_mod. change (2 ^ 16) with 65536.
  rewrite (N.mod_small b) by lia. destruct (N.leb_spec b a).
  - replace (a + 65536 - b) with (a - b + 1 * 65536) by lia. rewrite N.mod_add by lia. apply N.mod_small. lia.
  - apply N.mod_small. lia.
Qed.

Lemma idea_mul_spec a b : inw 16 a -> inw 16 b -> iv (idea_mul a b) = ((iv a * iv b) mod 65537)%Z.
Proof.
  intros Ha Hb.
  pose proof (iv_range _ (idea_mul_inw a b)) as HR.
  enough (E : exists q : Z, (iv a * iv b = q * 65537 + iv (idea_mul a b))%Z).
  { destruct E as [q E]. rewrite E, Z.add_comm, Z.mod_add by lia. rewrite Z.mod_small; lia. }
  pose proof (iv_range a Ha) as HRa. pose proof (iv_range b Hb) as HRb.
  pose proof (prime_nz _ prime_65537 _ _ HRa HRb) as NZ.
  unfold inw in Ha, Hb. change (2 ^ 16) with 65536 in Ha, Hb.
  unfold idea_mul in *. unfold wmul in *. rewrite mask_mod in *. change (2 ^ 32) with 4294967296 in *.
  rewrite (N.mod_small (a * b)) in * by nia.
  destruct (N.eqb_spec (a * b) 0) as [E0|E0].
  - (* one factor is 0, that is -1 *)
    clear HR NZ. assert (a = 0 \/ b = 0) as [->| ->] by nia.
    + change (wsub 16 1 0) with 1. unfold iv at 1. cbn [N.eqb].
      rewrite wsub16 by (unfold inw; change (2 ^ 16) with 65536; lia).
      unfold iv. destruct (N.leb_spec b 1).
      * assert (b = 0 \/ b = 1) as [->| ->] by lia; [exists 65535%Z|exists 0%Z]; reflexivity.
      * destruct (N.eqb_spec b 0); [lia|]. destruct (N.eqb_spec (1 + 65536 - b) 0); [lia|].
        exists (Z.of_N b - 1)%Z. change (0 =? 0) with true. cbv iota. rewrite N2Z.inj_sub by lia. lia.
    + assert (I : inw 16 (wsub 16 1 a)) by wb.
      assert (E : wsub 16 (wsub 16 1 a) 0 = wsub 16 1 a).
      { rewrite wsub16 by (exact I || apply inw_0). rewrite (proj2 (N.leb_le _ _) (N.le_0_l _)). lia. }
      rewrite E. rewrite wsub16 by (unfold inw; change (2 ^ 16) with 65536; lia).
      unfold iv. cbn [N.eqb]. destruct (N.leb_spec a 1).
      * assert (a = 0 \/ a = 1) as [->| ->] by lia; [exists 65535%Z|exists 0%Z]; reflexivity.
      * destruct (N.eqb_spec a 0); [lia|]. destruct (N.eqb_spec (1 + 65536 - a) 0); [lia|].
        exists (Z.of_N a - 1)%Z. change (0 =? 0) with true. cbv iota. rewrite N2Z.inj_sub by lia. lia.
  - assert (A0 : a <> 0) by nia. assert (B0 : b <> 0) by nia.
    assert (Ea : iv a = Z.of_N a) by (unfold iv; destruct (N.eqb_spec a 0); [lia|reflexivity]).
    assert (Eb : iv b = Z.of_N b) by (unfold iv; destruct (N.eqb_spec b 0); [lia|reflexivity]).
    rewrite Ea, Eb in *. rewrite <- N2Z.inj_mul in *.
    unfold wshr in *. rewrite !mask_mod, !N.shiftr_div_pow2 in *. change (2 ^ 16) with 65536 in *.
    assert (Hp : a * b < 65536 * 65536) by nia.
    set (p := a * b) in *. clearbody p. clear Ha Hb HRa HRb Ea Eb.
    pose proof (N.div_mod p 65536 ltac:(lia)) as DM. pose proof (N.mod_lt p 65536 ltac:(lia)) as ML.
    assert (HL : p / 65536 < 65536) by (apply N.div_lt_upper_bound; lia).
    set (hi := p / 65536) in *. set (lo := p mod 65536) in *. clearbody hi lo.
    assert (E1 : wsub 32 lo hi = if hi <=? lo then lo - hi else lo + 4294967296 - hi).
    { unfold wsub. rewrite !mask_mod. change (2 ^ 32) with 4294967296. rewrite (N.mod_small hi) by lia.
      destruct (N.leb_spec hi lo).
      - replace (lo + 4294967296 - hi) with (lo - hi + 1 * 4294967296) by lia. rewrite N.mod_add by lia. apply N.mod_small. lia.
      - apply N.mod_small. lia. }
    rewrite E1 in *. clear E1. destruct (N.leb_spec hi lo) as [L|L].
    + rewrite (N.mod_small (lo - hi)), (N.div_small (lo - hi)) in * by lia.
      rewrite wsub16 in * by (unfold inw; change (2 ^ 16) with 65536; lia).
      rewrite (proj2 (N.leb_le _ _) (N.le_0_l _)) in *. rewrite N.sub_0_r in *.
      exists (Z.of_N hi). unfold iv. destruct (N.eqb_spec (lo - hi) 0) as [Z0|Z0]; [|lia].
      exfalso. apply NZ. replace (Z.of_N p) with (Z.of_N hi * 65537)%Z by lia. apply Z_mod_mult.
    + replace (lo + 4294967296 - hi) with ((lo + 65536 - hi) + 65535 * 65536) in * by lia.
      rewrite N.mod_add, N.div_add in * by lia.
      rewrite (N.mod_small (lo + 65536 - hi)), (N.div_small (lo + 65536 - hi)) in * by lia.
      rewrite N.add_0_l in *.
      rewrite wsub16 in * by (unfold inw; change (2 ^ 16) with 65536; lia).
      destruct (N.leb_spec 65535 (lo + 65536 - hi)) as [L2|L2].
      * replace (lo + 65536 - hi - 65535) with 0 in * by lia. exists (Z.of_N hi - 1)%Z. unfold iv. change (0 =? 0) with true. cbv iota. lia.
      * exists (Z.of_N hi - 1)%Z. unfold iv. destruct (N.eqb_spec (lo + 65536 - hi + 65536 - 65535) 0); lia.
Qed.

Lemma idea_mul_1_r a : inw 16 a -> idea_mul a 1 = a.
Proof.
  intros H. apply iv_inj; [wb|exact H|]. rewrite idea_mul_spec by (exact H || reflexivity).
  change (iv 1) with 1%Z. rewrite Z.mul_1_r. apply Z.mod_small. pose proof (iv_range a H). lia.
Qed.
Lemma idea_mul_assoc a b c : inw 16 a -> inw 16 b -> inw 16 c -> idea_mul (idea_mul a b) c = idea_mul a (idea_mul b c).
Proof.
  intros Ha Hb Hc. apply iv_inj; [wb|wb|]. rewrite !idea_mul_spec by (assumption || wb).
  rewrite Z.mul_mod_idemp_l, Z.mul_mod_idemp_r by discriminate. now rewrite Z.mul_assoc.
Qed.
Lemma idea_mul_comm a b : inw 16 a -> inw 16 b -> idea_mul a b = idea_mul b a.
Proof. intros Ha Hb. apply iv_inj; [wb|wb|]. rewrite !idea_mul_spec by assumption. now rewrite Z.mul_comm. Qed.

Lemma idea_inv_spec x : inw 16 x -> inw 16 (idea_inv x) /\ iv (idea_inv x) = (iv x ^ 65535 mod 65537)%Z.
Proof.
  intros H. unfold idea_inv.
  pose proof (pfor_inv (fun j y => inw 16 y /\ iv y = (iv x ^ (2 ^ Z.of_nat (S j) - 1) mod 65537)%Z) 15 0
    (fun _ y => idea_mul (idea_mul y y) x) x) as G.
  change 65535%Z with (2 ^ Z.of_nat (S (0 + 15)) - 1)%Z. apply G.
  - intros j y _ [Hy Ey]. split; [wb|]. rewrite !idea_mul_spec by (assumption || wb). rewrite Ey.
    rewrite <- Z.mul_mod, Z.mul_mod_idemp_l by discriminate. f_equal.
    set (e := (2 ^ Z.of_nat (S j) - 1)%Z).
    assert (He : (0 <= e)%Z). { subst e. pose proof (Z.pow_pos_nonneg 2 (Z.of_nat (S j))). lia. }
    replace (2 ^ Z.of_nat (S (S j)) - 1)%Z with (e + e + 1)%Z.
    2: { subst e. rewrite (Nat2Z.inj_succ (S j)), Z.pow_succ_r by lia. lia. }
    rewrite !Z.pow_add_r by lia. lia.
  - split; [exact H|]. change (2 ^ Z.of_nat 1 - 1)%Z with 1%Z. rewrite Z.pow_1_r, Z.mod_small; [reflexivity|].
    pose proof (iv_range x H). lia.
Qed.

Lemma idea_inv_inw x : inw 16 x -> inw 16 (idea_inv x).
Proof. apply idea_inv_spec. Qed.
#[local] Hint Resolve idea_inv_inw : wb.

Lemma idea_inv_r x : inw 16 x -> idea_mul x (idea_inv x) = 1.
Proof.
  intros H. destruct (idea_inv_spec x H) as [Hi E]. apply iv_inj; [wb|reflexivity|].
  rewrite idea_mul_spec by assumption. rewrite E, Z.mul_mod_idemp_r by discriminate.
  pose proof (iv_range x H) as R. pose proof (fermat _ prime_65537 _ R) as F.
  change (iv 1) with 1%Z. change (65537 - 1)%Z with (Z.succ 65535) in F.
  rewrite Z.pow_succ_r in F by discriminate. exact F.
Qed.

Lemma idea_mul_inv a k : inw 16 a -> inw 16 k -> idea_mul (idea_mul a k) (idea_inv k) = a.
Proof. intros Ha Hk. rewrite idea_mul_assoc, idea_inv_r by wb. now apply idea_mul_1_r. Qed.
Lemma idea_inv_mul a k : inw 16 a -> inw 16 k -> idea_mul (idea_mul a (idea_inv k)) k = a.
Proof.
  intros Ha Hk. rewrite idea_mul_assoc, (idea_mul_comm (idea_inv k)), idea_inv_r by wb. now apply idea_mul_1_r.
Qed.
Lemma wadd_neg a k : inw 16 a -> inw 16 k -> wadd 16 a (idea_neg k) = wsub 16 a k.
Proof.
  intros Ha Hk. unfold idea_neg, wsub, wadd. rewrite !mask_mod. rewrite N.add_mod_idemp_r by discriminate.
  f_equal. unfold inw in *. change (2 ^ 16) with 65536 in *. rewrite (N.mod_small k) by lia. lia.
Qed.

(** The layers *)
Definition iA (k0 k1 k2 k3 : N) (x : N * N * N * N) : N * N * N * N :=
  let '(x0, x1, x2, x3) := x in (idea_mul x0 k0, wadd 16 x1 k1, wadd 16 x2 k2, idea_mul x3 k3).
Definition iA' (k0 k1 k2 k3 : N) (x : N * N * N * N) : N * N * N * N :=
  let '(x0, x1, x2, x3) := x in (idea_mul x0 (idea_inv k0), wsub 16 x1 k1, wsub 16 x2 k2, idea_mul x3 (idea_inv k3)).
Definition iM (k4 k5 : N) (x : N * N * N * N) : N * N * N * N :=
  let '(x0, x1, x2, x3) := x in
  let t0 := idea_mul (N.lxor x0 x2) k4 in
  let t1 := idea_mul (wadd 16 t0 (N.lxor x1 x3)) k5 in
  let t0 := wadd 16 t0 t1 in
  (N.lxor x0 t1, N.lxor x1 t0, N.lxor x2 t1, N.lxor x3 t0).
Definition isw (x : N * N * N * N) : N * N * N * N := let '(x0, x1, x2, x3) := x in (x0, x2, x1, x3).

Lemma idea_body_eq k0 k1 k2 k3 k4 k5 x : idea_body k0 k1 k2 k3 k4 k5 x = isw (iM k4 k5 (iA k0 k1 k2 k3 x)).
Proof.
  destruct x as [[[x0 x1] x2] x3]. unfold idea_body, isw, iM, iA. cbv zeta.
  f_equal. f_equal. apply N.lxor_comm.
Qed.

Lemma isw_isw x : isw (isw x) = x.
Proof. now destruct x as [[[x0 x1] x2] x3]. Qed.
Lemma iA_bij k0 k1 k2 k3 : inw 16 k0 -> inw 16 k1 -> inw 16 k2 -> inw 16 k3 ->
  pbij (@w4 16) (iA k0 k1 k2 k3) (iA' k0 k1 k2 k3).
Proof.
  intros H0 H1 H2 H3. split; intros [[[x0 x1] x2] x3] Hx; apply inw_4 in Hx; destruct Hx as (I0 & I1 & I2 & I3); unfold iA, iA', w4.
  - split; [repeat split; wb|]. now rewrite !idea_mul_inv, !wadd_wsub.
  - split; [repeat split; wb|]. now rewrite !idea_inv_mul, !wsub_wadd.
Qed.
Lemma lxor_swap4 a b t : N.lxor (N.lxor a t) (N.lxor b t) = N.lxor a b.
Proof. rewrite (N.lxor_comm b t), N.lxor_assoc, <- (N.lxor_assoc t t b), N.lxor_nilpotent. now rewrite N.lxor_0_l. Qed.
Lemma iM_bij k4 k5 : pbij (@w4 16) (iM k4 k5) (iM k4 k5).
Proof.
  assert (G : pinv (@w4 16) (iM k4 k5) (iM k4 k5)); [|now split].
  intros [[[x0 x1] x2] x3] Hx; apply inw_4 in Hx; destruct Hx as (I0 & I1 & I2 & I3); unfold iM, w4.
  split; [repeat split; wb|]. rewrite !lxor_swap4. now rewrite !lxor_cancel.
Qed.
Lemma isw_bij : pbij (@w4 16) isw isw.
Proof. split; intros [[[x0 x1] x2] x3] Hx; apply inw_4 in Hx; destruct Hx as (I0 & I1 & I2 & I3); repeat split; assumption. Qed.

(** idea_crypt as pure layers *)
Definition crypt_pure (k : list N) (n : nat) (x : N * N * N * N) : N * N * N * N :=
  let e i := nth i k 0 in
  let y := pfor n 0 (fun i x => isw (iM (e (i * 6 + 4)%nat) (e (i * 6 + 5)%nat)
      (iA (e (i * 6)%nat) (e (i * 6 + 1)%nat) (e (i * 6 + 2)%nat) (e (i * 6 + 3)%nat) x))) x in
  iA (e (n * 6)%nat) (e (n * 6 + 1)%nat) (e (n * 6 + 2)%nat) (e (n * 6 + 3)%nat) (isw y).

Lemma idea_crypt_pure k r x : length k = (6 * N.to_nat r + 4)%nat ->
  idea_crypt k r x = Ok (st4 (st := store16b) (crypt_pure k (N.to_nat r) (ld4 (k := 2) (ld := load16b) x))).
Proof.
  intros Hl. unfold idea_crypt, crypt_pure. set (n := N.to_nat r) in *.
  rewrite (mfor_ext n 0 _ (fun i x => Ok (isw (iM (nth (i * 6 + 4) k 0) (nth (i * 6 + 5) k 0)
      (iA (nth (i * 6) k 0) (nth (i * 6 + 1) k 0) (nth (i * 6 + 2) k 0) (nth (i * 6 + 3) k 0) x))))).
  - rewrite mfor_Ok. cbn [bind]. set (y := pfor _ _ _ _). destruct y as [[[x0 x1] x2] x3].
    rewrite !(get_ok k _ 0) by lia. reflexivity.
  - intros j y Hj. rewrite !(get_ok k _ 0) by lia. cbn [bind]. now rewrite idea_body_eq.
Qed.

Lemma flat_map_nth {A} (f : nat -> list A) c n j t d :
  (forall i, length (f i) = c) -> (j < n)%nat -> (t < c)%nat ->
  nth (j * c + t) (flat_map f (seq 0 n)) d = nth t (f j) d.
Proof.
  intros Hc. enough (G : forall s, (j < n)%nat -> (t < c)%nat -> nth (j * c + t) (flat_map f (seq s n)) d = nth t (f (s + j)%nat) d) by apply (G 0%nat).
  revert j. induction n as [|n IH]; intros j s Hj Ht; [lia|]. cbn [seq flat_map].
  destruct j as [|j].
  - cbn [Nat.mul Nat.add]. rewrite app_nth1 by (rewrite Hc; lia). now rewrite Nat.add_0_r.
  - rewrite app_nth2 by (rewrite Hc; lia). rewrite Hc. replace (S j * c + t - c)%nat with (j * c + t)%nat by lia.
    rewrite IH by lia. f_equal. f_equal. lia.
Qed.
Lemma flat_map_len {A} (f : nat -> list A) c n s : (forall i, length (f i) = c) -> length (flat_map f (seq s n)) = (n * c)%nat.
Proof.
  intros Hc. revert s. induction n as [|n IH]; intros s; cbn [seq flat_map]; [reflexivity|]. rewrite app_length, Hc, IH. lia.
Qed.

Section Keys.
  Variable n : nat.
  Variable ek : list N.
  Hypothesis Hn : (0 < n)%nat.
  Hypothesis Hw : words_ok 16 ek.
  Let e i := nth i ek 0.
  Let d i := nth i (idea_dec_key n ek) 0.

  Let row i :=
    let o := if Nat.eqb i 0 then 0%nat else 1%nat in
    let b := ((n - i) * 6)%nat in
    let c := ((n - 1 - i) * 6)%nat in
    [idea_inv (e b); idea_neg (e (b + 1 + o)%nat); idea_neg (e (b + 2 - o)%nat); idea_inv (e (b + 3)%nat);
     e (c + 4)%nat; e (c + 5)%nat].

  Lemma d_row i t : (i < n)%nat -> (t < 6)%nat -> d (i * 6 + t)%nat = nth t (row i) 0.
  Proof.
    intros Hi Ht. unfold d, idea_dec_key. rewrite app_nth1.
    - now apply (flat_map_nth row 6).
    - rewrite (flat_map_len row 6) by reflexivity. nia.
  Qed.
  Lemma d_last t : (t < 4)%nat ->
    d (n * 6 + t)%nat = nth t [idea_inv (e 0%nat); idea_neg (e 1%nat); idea_neg (e 2%nat); idea_inv (e 3%nat)] 0.
  Proof.
    intros Ht. unfold d, idea_dec_key. rewrite app_nth2; rewrite (flat_map_len row 6) by reflexivity; [|lia].
    f_equal. lia.
  Qed.
  Lemma length_dec_key : length (idea_dec_key n ek) = (6 * n + 4)%nat.
  Proof. unfold idea_dec_key. rewrite app_length, (flat_map_len row 6) by reflexivity. cbn [length]. lia. Qed.

  Let A i := iA (e (i * 6)%nat) (e (i * 6 + 1)%nat) (e (i * 6 + 2)%nat) (e (i * 6 + 3)%nat).
  Let A' i := iA' (e (i * 6)%nat) (e (i * 6 + 1)%nat) (e (i * 6 + 2)%nat) (e (i * 6 + 3)%nat).
  Let M i := iM (e (i * 6 + 4)%nat) (e (i * 6 + 5)%nat).
  Let dA i := iA (d (i * 6)%nat) (d (i * 6 + 1)%nat) (d (i * 6 + 2)%nat) (d (i * 6 + 3)%nat).
  Let dM i := iM (d (i * 6 + 4)%nat) (d (i * 6 + 5)%nat).

  Lemma e_inw i : inw 16 (e i).
  Proof. unfold e. wb. Qed.

  Lemma A_bij i : pbij (@w4 16) (A i) (A' i).
  Proof. apply iA_bij; apply e_inw. Qed.

  Lemma dM_eq i : (i < n)%nat -> dM i = M (n - 1 - i)%nat.
  Proof. intros Hi. unfold dM, M. now rewrite !d_row by lia. Qed.
  Lemma dA_0 x : @w4 16 x -> dA 0 x = A' n x.
  Proof.
    destruct x as [[[x0 x1] x2] x3]. intros Hx. apply inw_4 in Hx. destruct Hx as (I0 & I1 & I2 & I3).
    unfold dA. change (0 * 6)%nat with (0 * 6 + 0)%nat at 1. rewrite !d_row by lia.
    unfold row, A', iA, iA'. cbn [nth Nat.eqb]. rewrite !wadd_neg by (assumption || apply e_inw).
    rewrite !Nat.sub_0_r, !Nat.add_0_r. reflexivity.
  Qed.
  Lemma dA_i i x : (0 < i < n)%nat -> @w4 16 x -> dA i x = isw (A' (n - i)%nat (isw x)).
  Proof.
    destruct x as [[[x0 x1] x2] x3]. intros Hi Hx. apply inw_4 in Hx. destruct Hx as (I0 & I1 & I2 & I3).
    unfold dA. replace (i * 6)%nat with (i * 6 + 0)%nat at 1 by lia. rewrite !d_row by lia.
    unfold row, A', iA, iA', isw. rewrite (proj2 (Nat.eqb_neq i 0)) by lia.
    cbn [nth]. rewrite !wadd_neg by (assumption || apply e_inw).
    replace ((n - i) * 6 + 1 + 1)%nat with ((n - i) * 6 + 2)%nat by lia.
    now replace ((n - i) * 6 + 2 - 1)%nat with ((n - i) * 6 + 1)%nat by lia.
  Qed.
  Lemma dA_n x : @w4 16 x -> dA n x = A' 0 x.
  Proof.
    destruct x as [[[x0 x1] x2] x3]. intros Hx. apply inw_4 in Hx. destruct Hx as (I0 & I1 & I2 & I3).
    unfold dA. replace (n * 6)%nat with (n * 6 + 0)%nat at 1 by lia. rewrite !d_last by lia.
    unfold A', iA, iA'. cbn [nth]. now rewrite !wadd_neg by (assumption || apply e_inw).
  Qed.

  Lemma crypt_bij : pbij (@w4 16) (crypt_pure ek n) (crypt_pure (idea_dec_key n ek) n).
  Proof.
    set (F := fun i x => isw (M i (A i x))). set (F' := fun i x => A' i (M i (isw x))).
    assert (HF : forall i, pbij (@w4 16) (F i) (F' i)).
    { intros i. apply (pbij_comp (@w4 16) (fun x => M i (A i x)) (fun x => A' i (M i x)) isw isw).
      - apply (pbij_comp (@w4 16) (A i) (A' i) (M i) (M i)); [apply A_bij|apply iM_bij].
      - apply isw_bij. }
    assert (G : pbij (@w4 16) (fun x => A n (isw (pfor n 0 F x))) (fun x => pford n F' (isw (A' n x)))).
    { apply (pbij_comp (@w4 16) (fun x => isw (pfor n 0 F x)) (fun x => pford n F' (isw x)) (A n) (A' n)); [|apply A_bij].
      apply (pbij_comp (@w4 16) (pfor n 0 F) (pford n F') isw isw); [|apply isw_bij].
      apply pbij_loop. intros j _. apply HF. }
    eapply pbij_ext; [| |exact G]; [intros x _; reflexivity|].
    intros x Hx. 
    change (crypt_pure (idea_dec_key n ek) n x) with (dA n (isw (pfor n 0 (fun i x0 => isw (dM i (dA i x0))) x))).
    (* states of the two runs after m + 1 turns *)
    assert (S : forall m, (m < n)%nat -> exists h, @w4 16 h /\
      pfor (S m) 0 (fun i x0 => isw (dM i (dA i x0))) x = isw (M (n - 1 - m)%nat (isw h)) /\
      pford n F' (isw (A' n x)) = pford (n - m) F' h).
    { assert (MP : forall i y, @w4 16 y -> @w4 16 (M i y)) by (intros i y Hy; now apply iM_bij).
      assert (SP : forall y, @w4 16 y -> @w4 16 (isw y)) by (intros y Hy; now apply isw_bij).
      assert (AP : forall i y, @w4 16 y -> @w4 16 (A' i y)) by (intros i y Hy; now apply A_bij).
      induction m as [|m IH]; intros Hm.
      - exists (isw (A' n x)). split; [now apply SP, AP|]. split.
        + cbn [pfor]. rewrite dM_eq, dA_0 by assumption. now rewrite isw_isw.
        + now rewrite Nat.sub_0_r.
      - destruct IH as (h & Hh & E1 & E2); [lia|].
        set (j := (n - 1 - m)%nat) in *.
        assert (Hj : @w4 16 (M j (isw h))) by now apply MP, SP.
        exists (A' j (M j (isw h))). split; [now apply AP|]. split.
        + rewrite pfor_S, E1, Nat.add_0_l. rewrite dM_eq by lia. rewrite dA_i by (lia || now apply SP).
          rewrite isw_isw. replace (n - S m)%nat with j by lia. now replace (n - 1 - S m)%nat with (j - 1)%nat by lia.
        + rewrite E2. replace (n - m)%nat with (S j) by lia. cbn [pford].
          replace (n - S m)%nat with j by lia. reflexivity. }
    destruct (S (n - 1)%nat) as (h & Hh & E1 & E2); [lia|].
    replace (Datatypes.S (n - 1)) with n in E1 by lia. rewrite E1, E2.
    replace (n - (n - 1))%nat with 1%nat by lia. replace (n - 1 - (n - 1))%nat with 0%nat by lia.
    rewrite isw_isw. cbn [pford]. unfold F'. rewrite dA_n; [reflexivity|]. now apply iM_bij, isw_bij.
  Qed.
End Keys.

Lemma idea_ek_ok n key : bytes_ok key -> (0 < n)%nat ->
  let ek := pfor (6 * n + 4 - 8) 8 idea_ext (key16b key 8) in
  length ek = (6 * n + 4)%nat /\ words_ok 16 ek.
Proof.
  intros Hk Hn. cbv zeta. destruct (key16b_ok key 8 Hk) as [L W].
  pose proof (pfor_inv (fun j k => length k = j /\ words_ok 16 k) (6 * n + 4 - 8) 8 idea_ext (key16b key 8)) as G.
  replace (6 * n + 4)%nat with (8 + (6 * n + 4 - 8))%nat at 2 by lia. apply G; [|now split].
  intros j k _ [Lk Wk]. unfold idea_ext. rewrite app_length. cbn [length]. split; [lia|].
  apply Forall_app. split; [exact Wk|]. constructor; [wb|constructor].
Qed.

Lemma idea_perm r key : key_ok 16 key -> 24 * r + 16 < 2 ^ 32 ->
  exists s, idea_create r key = Ok s /\ permutation 8 (idea_encrypt s) (idea_decrypt s).
Proof.
  intros Hk Hr. exists (idea_setup (idea_rounds r) key). split.
  - unfold idea_create. rewrite assert_true by now apply key_len_ok_true.
    rewrite fits_ok; [reflexivity|]. change (2 ^ 32) with 4294967296 in Hr.
    rewrite mask_id; [lia|]. unfold inw, idea_rounds. change (2 ^ 32) with 4294967296. destruct (r =? 0); lia.
  - apply perm_of_bij. set (n := N.to_nat (idea_rounds r)).
    assert (Hn : (0 < n)%nat). { subst n. unfold idea_rounds. destruct (N.eqb_spec r 0); lia. }
    destruct (idea_ek_ok n key (proj1 Hk) Hn) as [L W].
    set (ek := pfor (6 * n + 4 - 8) 8 idea_ext (key16b key 8)) in *.
    pose proof (lift_bij (blk 8) (@w4 16) _ _ _ _ (ld4_bij codec16b) (pbij_bij _ _ _ (crypt_bij n ek Hn W))) as G.
    eapply bij_ext; [| |exact G].
    + intros x _. unfold idea_encrypt. cbn [idea_setup idea_ek idea_r bind]. fold n. fold ek.
      now rewrite idea_crypt_pure by exact L.
    + intros x _. unfold idea_decrypt. cbn [idea_setup idea_dk idea_r bind]. fold n. fold ek.
      now rewrite idea_crypt_pure by now apply length_dec_key.
Qed.
