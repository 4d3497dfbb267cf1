(** The permutation of keccak1600.c and keccak800.c is that of FIPS 202 (with its constants). *)
From Coq Require Import NArith Arith List Bool Lia.
From Verif Require Import Lib.Word Lib.Res Lib.Bytes Lib.Lists Lib.Bij Lib.WordSpec Lib.WordsP Spec.Words Spec.Modes Spec.Hash Spec.Keccak Model.LoadStore Model.HashApi Model.Keccak.
Import ListNotations.
Local Open Scope N_scope.

Lemma lane_lanes f x y : lane (lanes f) x y = f (x mod 5)%nat (y mod 5)%nat.
Proof.
  unfold lane, lanes. assert (x mod 5 < 5 /\ y mod 5 < 5)%nat as [Hx Hy] by (split; apply Nat.mod_upper_bound; lia).
  rewrite nth_map_seq by lia. set (a := (x mod 5)%nat) in *. set (b := (y mod 5)%nat) in *. cbn [Nat.add].
  replace (5 * b + a)%nat with (a + b * 5)%nat by lia. f_equal.
  - rewrite Nat.mod_add by lia. now apply Nat.mod_small.
  - rewrite Nat.div_add by lia. now rewrite Nat.div_small.
Qed.
Lemma lanes_ext f g : (forall x y, (x < 5)%nat -> (y < 5)%nat -> f x y = g x y) -> lanes f = lanes g.
Proof.
  intros E. apply map_ext_in. intros i Hi. apply in_seq in Hi. apply E; [apply Nat.mod_upper_bound; lia|].
  apply Nat.div_lt_upper_bound; lia.
Qed.
Lemma length_lanes f : length (lanes f) = 25%nat. Proof. reflexivity. Qed.

Lemma wnot_sub w x : inw w x -> wnot w x = 2 ^ w - 1 - x.
Proof.
  intros H. unfold wnot. change (N.lxor x (N.ones w)) with (N.lnot x w). rewrite N.sub_1_r, <- N.ones_equiv.
  destruct (N.eq_dec x 0) as [->|Z]; [now rewrite N.lnot_0_l, N.sub_0_r|]. apply N.lnot_sub_low. apply N.log2_lt_pow2; [lia|exact H].
Qed.
Lemma rotl_0 w x : inw w x -> rotl w x 0 = x.
Proof. intros H. unfold rotl. rewrite N.pow_0_r, N.mul_1_r, N.sub_0_r, N.mod_small, N.div_small by exact H. apply N.add_0_r. Qed.

(** rotation, chi and the order of the lanes, for the column values [d] *)
Definition B_lane (w : N) (a d : list N) (x y : nat) : N :=
  let x' := ((x + 3 * y) mod 5)%nat in rotl w (N.lxor (nth (5 * x + x') a 0) (nth x' d 0)) (rho_offset x' x mod w).
Definition rows_spec (w : N) (a d : list N) : list N :=
  lanes (fun x y => let B x := B_lane w a d x y in N.lxor (B x) (N.land (2 ^ w - 1 - B ((x + 1) mod 5)%nat) (B ((x + 2) mod 5)%nat))).
Definition col (a : list N) (x : nat) : N := fold_left N.lxor (map (lane a x) [1; 2; 3; 4]%nat) (lane a x 0).

Lemma nth_inw w (l : list N) i : Forall (inw w) l -> inw w (nth i l 0).
Proof.
  intros H. destruct (Nat.lt_ge_cases i (length l)) as [L|L]; [now apply Forall_nth|]. rewrite nth_overflow by exact L. apply inw_0.
Qed.

(** the order of the lanes, with the operations left open *)
Definition order (F : nat -> nat -> N -> N) (G : N -> N -> N -> N) (rows : list (list (nat * nat * N))) : list N :=
  flat_map (fun row => let c := map (fun q => let '(i, j, n) := q in F i j n) row in
    map (fun k => G (nth k c 0) (nth ((k + 1) mod 5) c 0) (nth ((k + 2) mod 5) c 0)) (seq 0 5)) rows.
Definition order_spec (w : N) (F : nat -> nat -> N -> N) (G : N -> N -> N -> N) : list N :=
  lanes (fun x y => let B x := let x' := ((x + 3 * y) mod 5)%nat in F (5 * x + x')%nat x' (rho_offset x' x mod w) in
    G (B x) (B ((x + 1) mod 5)%nat) (B ((x + 2) mod 5)%nat)).
Lemma order1600 F G : order F G keccak1600_rows = order_spec 64 F G. Proof. vm_compute. reflexivity. Qed.
Lemma order800 F G : order F G keccak800_rows = order_spec 32 F G. Proof. vm_compute. reflexivity. Qed.

Section Core.
  Variable p : keccakp.
  Let w := kp_w p.
  Hypothesis rots : forallb (forallb (fun q => snd q <? w)) (kp_rows p) = true.
  Hypothesis ord : forall F G, order F G (kp_rows p) = order_spec w F G.
  Hypothesis w1 : 1 <= w.
  Lemma cells (a d : list N) i j n : Forall (inw w) a -> Forall (inw w) d -> n < w ->
    let x := N.lxor (nth i a 0) (nth j d 0) in (if n =? 0 then x else rol w x n) = rotl w x n /\ inw w (rotl w x n).
  Proof.
    clear. intros Ha Hd Hn x. assert (I : inw w x) by (apply inw_lxor; apply nth_inw; assumption).
    assert (E : (if n =? 0 then x else rol w x n) = rotl w x n).
    { destruct (N.eqb_spec n 0) as [->|Z]; [symmetry; now apply rotl_0|]. apply rol_rotl; [exact I|lia]. }
    split; [exact E|]. rewrite <- E. destruct (n =? 0); [exact I|now apply inw_rol].
  Qed.
  Lemma rows_ok a d : Forall (inw w) a -> Forall (inw w) d -> flat_map (kc_row p a d) (kp_rows p) = rows_spec w a d /\ Forall (inw w) (rows_spec w a d).
  Proof.
    intros Ha Hd.
    assert (E : flat_map (kc_row p a d) (kp_rows p) =
      order (fun i j n => rotl w (N.lxor (nth i a 0) (nth j d 0)) n) (fun x y z => N.lxor x (N.land (2 ^ w - 1 - y) z)) (kp_rows p)).
    { unfold order. rewrite !flat_map_concat_map. apply f_equal. apply map_ext_in. intros row Hr.
      pose proof (proj1 (forallb_forall _ _) rots row Hr) as R.
      assert (C : map (fun q => let '(i, j, n) := q in let x := N.lxor (nth i a 0) (nth j d 0) in if n =? 0 then x else rol w x n) row =
        map (fun q => let '(i, j, n) := q in rotl w (N.lxor (nth i a 0) (nth j d 0)) n) row).
      { apply map_ext_in. intros [[i j] n] Hq. apply (cells a d i j n Ha Hd). pose proof (proj1 (forallb_forall _ _) R _ Hq) as Hn. now apply N.ltb_lt. }
      unfold kc_row. change (kp_w p) with w. cbv zeta in C |- *. rewrite C. apply map_ext_in. intros k _. cbv zeta. rewrite wnot_sub; [reflexivity|].
      apply nth_inw. apply Forall_forall. intros v Hv. apply in_map_iff in Hv. destruct Hv as ([[i j] n] & <- & Hq).
      apply (cells a d i j n Ha Hd). pose proof (proj1 (forallb_forall _ _) R _ Hq) as Hn. now apply N.ltb_lt. }
    assert (S : order_spec w (fun i j n => rotl w (N.lxor (nth i a 0) (nth j d 0)) n) (fun x y z => N.lxor x (N.land (2 ^ w - 1 - y) z)) = rows_spec w a d) by reflexivity.
    split; [now rewrite E, ord|].
    apply Forall_forall. intros v Hv. apply in_map_iff in Hv. destruct Hv as (i & <- & Hi).
    assert (B : forall x y, inw w (B_lane w a d x y)).
    { intros x y. unfold B_lane. cbv zeta. apply (cells a d _ _ _ Ha Hd). apply N.mod_lt. lia. }
    cbv zeta. rewrite <- wnot_sub by apply B. apply inw_lxor; [apply B|]. apply inw_land_r. apply B.
  Qed.
  Lemma cols_ok a : kc_d p (kc_c a) = map (fun x => N.lxor (rol w (col a (x + 1)%nat) 1) (col a (x + 4)%nat)) (seq 0 5).
  Proof. reflexivity. Qed.
  Lemma round_ok rc a : length a = 25%nat -> Forall (inw w) a -> inw w rc ->
    kc_round p rc a = keccak_round w rc a /\ length (keccak_round w rc a) = 25%nat /\ Forall (inw w) (keccak_round w rc a).
  Proof.
    intros L Ha Hc. set (d := kc_d p (kc_c a)).
    assert (C : forall x, inw w (col a x)) by (intros x; cbn; unfold lane; repeat apply inw_lxor; apply nth_inw; exact Ha).
    assert (Hd : Forall (inw w) d).
    { subst d. rewrite cols_ok. apply Forall_forall. intros v Hv. apply in_map_iff in Hv. destruct Hv as (i & <- & Hi). apply inw_lxor; [apply inw_rol|]; apply C. }
    assert (D : forall x, (x < 5)%nat -> nth x d 0 = N.lxor (col a (x + 4)) (rotl w (col a (x + 1)) 1)).
    { intros x Hx. subst d. rewrite cols_ok, nth_map_seq by exact Hx. cbn [Nat.add]. rewrite N.lxor_comm, rol_rotl; [reflexivity|apply C|lia]. }
    destruct (rows_ok a d Ha Hd) as [E F].
    assert (K : keccak_round w rc a = iota_step rc (rows_spec w a d)).
    { unfold keccak_round. apply f_equal. apply lanes_ext. intros x y Hx Hy.
      assert (T : forall x y, (x < 5)%nat -> (y < 5)%nat -> lane (pi_step (rho w (theta w a))) x y = B_lane w a d x y).
      { clear x y Hx Hy. intros x y Hx Hy. unfold pi_step. rewrite lane_lanes. unfold rho. rewrite lane_lanes. unfold theta. rewrite lane_lanes.
        unfold B_lane. cbv zeta. rewrite (Nat.mod_small x), (Nat.mod_small y) by assumption. rewrite !Nat.mod_mod by lia. rewrite (Nat.mod_small x) by assumption.
        rewrite D by (apply Nat.mod_upper_bound; lia). f_equal. f_equal. unfold lane. rewrite Nat.mod_mod, (Nat.mod_small x) by (assumption || lia). reflexivity. }
      rewrite T by assumption.
      assert (M : forall k, lane (pi_step (rho w (theta w a))) (x + k) y = B_lane w a d ((x + k) mod 5) y).
      { intros k. rewrite <- T by (try assumption; apply Nat.mod_upper_bound; lia). unfold lane. now rewrite Nat.mod_mod by lia. }
      rewrite !M. reflexivity. }
    assert (Q : kc_round p rc a = iota_step rc (rows_spec w a d)).
    { unfold kc_round. cbv zeta. fold d. rewrite E. reflexivity. }
    rewrite Q, <- K. split; [reflexivity|]. rewrite K. split; [reflexivity|].
    apply Forall_forall. intros v Hv. apply in_map_iff in Hv. destruct Hv as (i & <- & Hi). cbv beta.
    destruct (_ && _); [apply inw_lxor; [|exact Hc]|]; apply nth_inw; exact F.
  Qed.

  (** the whole permutation *)
  Variable RC : nat -> N.
  Let k := kp_k p.
  Hypothesis wk : w = 8 * N.of_nat k.
  Hypothesis rcs : kp_rc p = map RC (seq 0 (length (kp_rc p))).
  Hypothesis rcw : Forall (inw w) (kp_rc p).
  Hypothesis ld : forall s i, length s = (25 * k)%nat -> bytes_ok s -> (i < 25)%nat -> kp_load p s (k * i)%nat = nth i (le_words k 25 s) 0.
  Hypothesis st : forall x, kp_store p x = le_bytes k x.
  Lemma F_ok r s : length s = (25 * k)%nat -> bytes_ok s -> (N.to_nat r <= length (kp_rc p))%nat ->
    kc_F p r s = Ok (keccak_bytes k RC (N.to_nat r) s) /\ length (keccak_bytes k RC (N.to_nat r) s) = (25 * k)%nat /\ bytes_ok (keccak_bytes k RC (N.to_nat r) s).
  Proof.
    intros L Hb Hr. unfold kc_F, keccak_bytes. rewrite <- wk.
    assert (A : map (fun i => kp_load p s (kp_k p * i)%nat) (seq 0 25) = le_words k 25 s).
    { apply map_ext_in. intros i Hi. apply in_seq in Hi. change (kp_k p) with k. rewrite (ld s i L Hb) by lia. unfold le_words. now rewrite nth_map_seq by lia. }
    rewrite A.
    assert (W : length (le_words k 25 s) = 25%nat /\ Forall (inw w) (le_words k 25 s)).
    { split; [apply length_le_words|]. apply le_words_inw; assumption. }
    assert (G : forall n a, (n <= length (kp_rc p))%nat -> length a = 25%nat /\ Forall (inw w) a ->
      mfor n 0 (fun i a => let* x := get (kp_rc p) i in Ok (kc_round p x a)) a = Ok (keccak_p w RC n a) /\
      (length (keccak_p w RC n a) = 25%nat /\ Forall (inw w) (keccak_p w RC n a))).
    { clear - rots ord w1 rcs rcw. intros n a. induction n as [|n IH]; intros Hn Ha; [split; [reflexivity|exact Ha]|].
      destruct IH as (E & La & Wa); [lia|exact Ha|]. rewrite mfor_S, E. cbn [bind Nat.add].
      assert (X : nth n (kp_rc p) 0 = RC n) by (rewrite rcs, nth_map_seq by lia; reflexivity).
      rewrite (get_ok _ n 0) by lia. cbn [bind]. rewrite X.
      destruct (round_ok (RC n) (keccak_p w RC n a) La Wa) as (R & Lr & Wr); [rewrite <- X; now apply nth_inw|].
      unfold keccak_p in *. rewrite seq_S, fold_left_app. cbn [fold_left Nat.add]. rewrite R. auto. }
    destruct (G (N.to_nat r) _ Hr W) as (E & Lr & Wr). rewrite E. cbn [bind].
    assert (T : flat_map (kp_store p) (keccak_p w RC (N.to_nat r) (le_words k 25 s)) = le_string k (keccak_p w RC (N.to_nat r) (le_words k 25 s))).
    { unfold le_string. apply flat_map_ext. exact st. }
    rewrite T. split; [reflexivity|]. split; [rewrite length_le_string, Lr; lia|].
    unfold le_string. apply Forall_forall. intros b Hin. apply in_flat_map in Hin. destruct Hin as (x & _ & Hin). exact (proj1 (Forall_forall _ _) (bytes_le_bytes k x) b Hin).
  Qed.
End Core.

Lemma F1600 r s : length s = 200%nat -> bytes_ok s -> r <= 48 ->
  let s' := keccak_bytes 8 (round_constant 64) (N.to_nat r) s in kc_F keccak1600p r s = Ok s' /\ length s' = 200%nat /\ bytes_ok s'.
Proof.
  intros L B Hr. apply (F_ok keccak1600p eq_refl order1600 ltac:(discriminate) (round_constant 64) eq_refl); [vm_compute; reflexivity| | | |exact L|exact B|].
  - apply Forall_forall. intros x Hx. exact (proj1 (N.ltb_lt _ _) (proj1 (forallb_forall (fun x => x <? 2 ^ 64) keccak1600_rc) eq_refl x Hx)).
  - intros l i Ll Bl Hi. apply nth_load64l; [exact Bl|rewrite Ll; apply le_n|exact Hi].
  - exact store64l_bytes.
  - change (length (kp_rc keccak1600p)) with (N.to_nat 48). lia.
Qed.
Lemma F800 r s : length s = 100%nat -> bytes_ok s -> r <= 40 ->
  let s' := keccak_bytes 4 folded_constant (N.to_nat r) s in kc_F keccak800p r s = Ok s' /\ length s' = 100%nat /\ bytes_ok s'.
Proof.
  intros L B Hr. apply (F_ok keccak800p eq_refl order800 ltac:(discriminate) folded_constant eq_refl); [vm_compute; reflexivity| | | |exact L|exact B|].
  - apply Forall_forall. intros x Hx. exact (proj1 (N.ltb_lt _ _) (proj1 (forallb_forall (fun x => x <? 2 ^ 32) keccak800_rc) eq_refl x Hx)).
  - intros l i Ll Bl Hi. apply nth_load32l; [exact Bl|rewrite Ll; apply le_n|exact Hi].
  - exact store32l_bytes.
  - change (length (kp_rc keccak800p)) with (N.to_nat 40). lia.
Qed.
