From Coq Require Import NArith Arith List Bool Lia.
From Verif Require Import Lib.Word Lib.Res Lib.Bytes Lib.BlockLemmas Lib.Bij Lib.Feistel Lib.XorSolve Spec.Block
  Model.LoadStore Model.BlockApi Model.Table Model.Blowfish Proof.TableP.
Import ListNotations.
Local Open Scope N_scope.

(** One round with the halves exchanged afterwards. *)
Definition bf_half (f : N -> N) (k : N) (x : N * N) : N * N :=
  let a := N.lxor (fst x) k in (N.lxor (snd x) (f a), a).
(** The same with the key added after the round. *)
Definition bf_rnd (f : N -> N) (k : N) (x : N * N) : N * N := (N.lxor (N.lxor (snd x) (f (fst x))) k, fst x).
Definition bf_sw (x : N * N) : N * N := (snd x, fst x).
Definition bf_add (k : N) (x : N * N) : N * N := (N.lxor (fst x) k, snd x).

Lemma bf_regroup f (k : nat -> N) n x :
  bf_add (k n) (pfor n 0 (fun i => bf_half f (k i)) x) = pfor n 0 (fun i => bf_rnd f (k (S i))) (bf_add (k 0%nat) x).
Proof.
  induction n as [|n IH]; [reflexivity|]. rewrite !pfor_S, <- IH.
  unfold bf_add, bf_half, bf_rnd. cbn [fst snd]. reflexivity.
Qed.

(** the loop of the model takes two rounds at a time *)
Lemma bf_double f (k : nat -> N) m x :
  pfor m 0 (fun i x => let a := N.lxor (fst x) (k (2 * i)%nat) in let b := N.lxor (snd x) (f a) in
    let b := N.lxor b (k (2 * i + 1)%nat) in (N.lxor a (f b), b)) x =
  pfor (2 * m) 0 (fun i => bf_half f (k i)) x.
Proof.
  induction m as [|m IH]; [reflexivity|]. replace (2 * S m)%nat with (S (S (2 * m)))%nat by lia.
  rewrite !pfor_S, IH. unfold bf_half. cbn [fst snd]. cbv zeta. now rewrite Nat.add_1_r.
Qed.

Definition bf_pure (f : N -> N) (k : nat -> N) (r : nat) (x : N * N) : N * N :=
  bf_add (k (r + 1)%nat) (bf_sw (pfor r 0 (fun i => bf_rnd f (k (S i))) (bf_add (k 0%nat) x))).

Lemma bf_crypt_eq s ix x : length (bf_p s) = (N.to_nat (bf_r s) + 2)%nat ->
  (forall i, (i < N.to_nat (bf_r s) + 2)%nat -> (ix i < N.to_nat (bf_r s) + 2)%nat) ->
  bf_crypt s ix x = Ok (bf_pure (bf_f s) (fun i => nth (ix i) (bf_p s) 0) (N.to_nat (bf_r s)) x).
Proof.
  intros Hl Hi. unfold bf_crypt, bf_pure. set (r := N.to_nat (bf_r s)) in *. set (k := fun i => nth (ix i) (bf_p s) 0).
  cbv zeta.
  assert (Hd : (2 * (r / 2) <= r)%nat) by (apply Nat.mul_div_le; lia).
  rewrite (mfor_ext (r / 2) 0 _ (fun i x => Ok (let a := N.lxor (fst x) (k (2 * i)%nat) in
    let b := N.lxor (snd x) (bf_f s a) in let b := N.lxor b (k (2 * i + 1)%nat) in (N.lxor a (bf_f s b), b)))).
  2: { intros j y Hj. rewrite (get_ok _ (ix (2 * j)%nat) 0) by (rewrite Hl; apply Hi; lia). cbn [bind].
       rewrite (get_ok _ (ix (2 * j + 1)%nat) 0) by (rewrite Hl; apply Hi; lia). reflexivity. }
  rewrite mfor_Ok. cbn [bind]. rewrite bf_double.
  rewrite <- (bf_regroup (bf_f s) k).
  pose proof (Nat.div_mod r 2 ltac:(lia)) as DM.
  destruct (Nat.odd r) eqn:Ho.
  - apply Nat.odd_spec in Ho. destruct Ho as [q Eq].
    assert (Eh : (r / 2)%nat = q) by (rewrite Eq, Nat.mul_comm, Nat.add_comm, Nat.div_add by lia; reflexivity).
    rewrite Eh. set (y := pfor (2 * q) 0 _ x).
    rewrite (get_ok _ (ix (r - 1)%nat) 0) by (rewrite Hl; apply Hi; lia). cbn [bind].
    rewrite (get_ok _ (ix r) 0) by (rewrite Hl; apply Hi; lia). cbn [bind].
    rewrite (get_ok _ (ix (r + 1)%nat) 0) by (rewrite Hl; apply Hi; lia). cbn [bind]. f_equal.
    assert (Ep : pfor r 0 (fun i => bf_half (bf_f s) (k i)) x = bf_half (bf_f s) (k (2 * q)%nat) y).
    { replace (pfor r) with (@pfor (N * N) (S (2 * q))) by (f_equal; lia). rewrite pfor_S. reflexivity. }
    rewrite Ep.
    unfold bf_half, bf_add, bf_sw. cbn [fst snd]. fold (k (r - 1)%nat) (k r) (k (r + 1)%nat).
    now replace (r - 1)%nat with (2 * q)%nat by lia.
  - assert (He : Nat.even r = true) by (rewrite <- Nat.negb_odd, Ho; reflexivity).
    apply Nat.even_spec in He. destruct He as [q Eq].
    assert (Eh : (r / 2)%nat = q) by (rewrite Eq, Nat.mul_comm, Nat.div_mul by lia; reflexivity).
    rewrite Eh. set (y := pfor (2 * q) 0 _ x).
    rewrite (get_ok _ (ix r) 0) by (rewrite Hl; apply Hi; lia). cbn [bind].
    rewrite (get_ok _ (ix (r + 1)%nat) 0) by (rewrite Hl; apply Hi; lia). cbn [bind]. f_equal.
    replace (pfor r) with (@pfor (N * N) (2 * q)) by (f_equal; lia). fold y. reflexivity.
Qed.

Definition bf_fine (s : blowfish) : Prop :=
  length (bf_p s) = (N.to_nat (bf_r s) + 2)%nat /\ words_ok 32 (bf_p s).

Lemma bf_f_inw s x : inw 32 (bf_f s x).
Proof. unfold bf_f. wb. Qed.

Lemma bf_rnd_sw f k x : (forall y, inw 32 (f y)) -> inw 32 k -> @w2 32 x ->
  @w2 32 (bf_rnd f k x) /\ bf_sw (bf_rnd f k (bf_sw (bf_rnd f k x))) = x.
Proof.
  intros Hf Hk. destruct x as [a b]. intros [Ha Hb]. cbn [fst snd] in Ha, Hb. unfold bf_rnd, bf_sw. cbn [fst snd]. split.
  - split; cbn [fst snd]; wb.
  - f_equal. xor_solve.
Qed.
Lemma bf_add_pbij k : inw 32 k -> pbij (@w2 32) (bf_add k) (bf_add k).
Proof. intros Hk. split; intros [a b] [Ha Hb]; cbn [fst snd] in *; unfold bf_add; cbn [fst snd]; rewrite lxor_cancel; (split; [split; cbn [fst snd]; wb|reflexivity]). Qed.

Lemma blowfish_bij s : bf_fine s -> bij_on (blk 8) (blk 8) (blowfish_encrypt s) (blowfish_decrypt s).
Proof.
  intros [Hl Hw]. set (r := N.to_nat (bf_r s)) in *. set (k := fun i => nth i (bf_p s) 0).
  assert (Hk : forall i, inw 32 (k i)) by (intros i; now apply words_nth).
  assert (B : pbij (@w2 32) (fun x => bf_sw (pfor r 0 (fun i => bf_rnd (bf_f s) (k (S i))) x))
    (fun x => bf_sw (pford r (fun i => bf_rnd (bf_f s) (k (S i))) x))).
  { apply feistel_bij.
    - intros [a b] [Ha Hb]. now split.
    - intros i x _ Hx. apply bf_rnd_sw; auto using bf_f_inw.
    - intros i x _ Hx. apply bf_rnd_sw; auto using bf_f_inw. }
  pose proof (pbij_comp _ _ _ _ _ (pbij_comp _ _ _ _ _ (bf_add_pbij (k 0%nat) (Hk _)) B) (bf_add_pbij (k (r + 1)%nat) (Hk _))) as P.
  pose proof (lift_bij (blk 8) (@w2 32) _ _ _ _ (ld2_bij codec32b) (pbij_bij _ _ _ P)) as G.
  eapply bij_ext; [| |exact G]; intros x _.
  - unfold blowfish_encrypt. rewrite bf_crypt_eq by (try assumption; intros; lia). reflexivity.
  - unfold blowfish_decrypt. rewrite bf_crypt_eq by (try assumption; intros; fold r; lia). cbn [bind]. do 2 f_equal.
    unfold bf_pure. fold r. rewrite Nat.sub_0_r. fold (k (r + 1)%nat). rewrite Nat.sub_diag. fold (k 0%nat). cbv beta. do 2 f_equal.
    rewrite <- pfor_rev. apply pfor_ext. intros j y Hj. fold (k (r + 1 - S j)%nat).
    now replace (r + 1 - S j)%nat with (S (r - 1 - j)) by lia.
Qed.

(** ** Key setup *)

Definition bf_live (r : N) (sb : blowfish * list N) : Prop :=
  bf_fine (fst sb) /\ bf_r (fst sb) = r /\ blk 8 (snd sb).
Definition bf_keeps (set : nat -> N -> blowfish -> blowfish) : Prop :=
  forall i v s, inw 32 v -> bf_fine s -> bf_fine (set i v s) /\ bf_r (set i v s) = bf_r s.

Lemma bf_set_keeps : bf_keeps bf_set_p /\ bf_keeps bf_set_s0 /\ bf_keeps bf_set_s1 /\ bf_keeps bf_set_s2 /\ bf_keeps bf_set_s3.
Proof.
  repeat split; try apply H0; cbn [bf_set_p bf_set_s0 bf_set_s1 bf_set_s2 bf_set_s3 bf_p bf_r];
    destruct H0 as [H1 H2]; rewrite ?length_upd; try exact H1; now apply Forall_upd.
Qed.

Lemma bf_fill_live set n r sb : bf_keeps set -> bf_live r sb -> exists sb', bf_fill set n sb = Ok sb' /\ bf_live r sb'.
Proof.
  intros Hs. unfold bf_fill.
  apply (mfor_inv (fun _ sb => bf_live r sb)). intros j [s b] _ (Hf & Hr & Hb). cbn [fst snd] in *.
  destruct (proj1 (blowfish_bij s Hf) b Hb) as (c & E & Hc & _). rewrite E. cbn [bind]. eexists. split; [reflexivity|].
  assert (I : forall o, inw 32 (load32b c o)) by (intros o; apply (c_inw _ _ _ _ codec32b), Hc).
  destruct (Hs (2 * j)%nat (load32b c 0) s (I _) Hf) as [Hf1 Hr1].
  destruct (2 * j + 1 =? n)%nat; (split; [|split]); cbn [fst snd]; try exact Hc.
  - exact Hf1.
  - congruence.
  - now apply Hs.
  - rewrite (proj2 (Hs _ _ _ (I _) Hf1)). congruence.
Qed.

Lemma bf_pi_ok : words_ok 32 bf_pi. Proof. apply words_okb. vm_compute. reflexivity. Qed.
Lemma bf_key_word_inw key i : bytes_ok key -> inw 32 (bf_key_word key i).
Proof.
  intros H. unfold bf_key_word. cbv zeta. apply inw_lor; [wb|]. apply (inw_mono 8); [discriminate|].
  now apply (bytes_nth key).
Qed.

Lemma bf_setup_ok r key : bytes_ok key -> r <= 34 -> exists s, bf_setup r key = Ok s /\ bf_fine s /\ bf_r s = r.
Proof.
  intros Hk Hr. unfold bf_setup. rewrite (proj2 (N.ltb_ge 34 r) Hr). cbv zeta.
  set (s0 := {| bf_r := r |}).
  assert (L : bf_live r (s0, repeat 0 8)).
  { split; [|split; [reflexivity|]].
    - split; cbn [s0 fst bf_p bf_r]; [now rewrite map_length, seq_length|].
      apply Forall_forall. intros x Hx. apply in_map_iff in Hx. destruct Hx as (i & <- & _).
      apply inw_lxor; [apply words_nth, bf_pi_ok|now apply bf_key_word_inw].
    - split; [reflexivity|]. cbn [snd]. repeat constructor. }
  destruct bf_set_keeps as (K & K0 & K1 & K2 & K3).
  destruct (bf_fill_live _ (N.to_nat r + 2) r _ K L) as (a & -> & La). cbn [bind].
  destruct (bf_fill_live _ 256 r _ K0 La) as (b & -> & Lb). cbn [bind].
  destruct (bf_fill_live _ 256 r _ K1 Lb) as (c & -> & Lc). cbn [bind].
  destruct (bf_fill_live _ 256 r _ K2 Lc) as (d & -> & Ld). cbn [bind].
  destruct (bf_fill_live _ 256 r _ K3 Ld) as (e & -> & (Le & Re & _)). cbn [bind].
  exists (fst e). now split.
Qed.

(** Blowfish with any number of rounds up to 34, even or odd *)
Lemma blowfish_perm r key : key_ok 56 key -> r <= 34 ->
  exists s, blowfish_create r key = Ok s /\ permutation 8 (blowfish_encrypt s) (blowfish_decrypt s).
Proof.
  intros Hk Hr. assert (R : blowfish_rounds r <= 34) by (unfold blowfish_rounds; destruct (r =? 0); lia).
  destruct (bf_setup_ok _ key (proj1 Hk) R) as (s & E & F & _). exists s. split.
  - unfold blowfish_create. now rewrite assert_true by now apply key_len_ok_true.
  - now apply perm_of_bij, blowfish_bij.
Qed.
Lemma blowfish_many_rounds r key : key_ok 56 key -> 34 < r -> blowfish_create r key = Err OobRead.
Proof.
  intros Hk Hr. unfold blowfish_create. rewrite assert_true by now apply key_len_ok_true.
  unfold blowfish_rounds. rewrite (proj2 (N.eqb_neq r 0)) by lia.
  unfold bf_setup. now rewrite (proj2 (N.ltb_lt 34 r) Hr).
Qed.
