From Coq Require Import NArith Arith List Bool Lia.
From Verif Require Import Lib.Word Lib.Res Lib.Bytes Lib.Bij Lib.Bits Lib.BlockLemmas Lib.Feistel Spec.Block
  Model.LoadStore Model.BlockApi Model.Table Model.Twofish Proof.TableP.
Import ListNotations.
Local Open Scope N_scope.

Definition twf_boxes (s : twofish) : Prop :=
  words_ok 32 (twf_s0 s) /\ words_ok 32 (twf_s1 s) /\ words_ok 32 (twf_s2 s) /\ words_ok 32 (twf_s3 s).

Lemma twf_g0_inw s x : twf_boxes s -> inw 32 (twf_g0 s x).
Proof. intros (A & B & C & D). unfold twf_g0. repeat apply inw_lxor; now apply tab8_inw. Qed.
Lemma twf_g1_inw s x : twf_boxes s -> inw 32 (twf_g1 s x).
Proof. intros (A & B & C & D). unfold twf_g1. repeat apply inw_lxor; now apply tab8_inw. Qed.

Lemma twf_white_bij s j : words_ok 32 (twf_k s) -> (j + 4 <= length (twf_k s))%nat ->
  bij_on (@w4 32) (@w4 32) (twf_white s j) (twf_white s j).
Proof.
  intros Hw Hl. assert (K : forall i, inw 32 (nth i (twf_k s) 0)) by (intros; wb).
  assert (G : inv_on (@w4 32) (@w4 32) (twf_white s j) (twf_white s j)).
  { intros [[[a b] c] d] (Ha & Hb & Hc & Hd). unfold twf_white. gets. eexists. split; [reflexivity|].
    split; [repeat split; wb|]. now rewrite !lxor_cancel. }
  now split.
Qed.

Lemma twf_round_bij s j : words_ok 32 (twf_k s) -> (j + 4 <= length (twf_k s))%nat ->
  bij_on (@w4 32) (@w4 32) (twf_enc_round s j) (twf_dec_round s j).
Proof.
  intros Hw Hl. assert (K : forall i, inw 32 (nth i (twf_k s) 0)) by (intros; wb).
  split; intros [[[a b] c] d] (Ha & Hb & Hc & Hd); unfold twf_enc_round, twf_dec_round; gets; eexists;
    (split; [reflexivity|]); (split; [repeat split; wb|]).
  - repeat first [rewrite rol_ror by (wb || lia) | rewrite lxor_cancel | rewrite ror_rol by (wb || lia)]. reflexivity.
  - repeat first [rewrite rol_ror by (wb || lia) | rewrite lxor_cancel | rewrite ror_rol by (wb || lia)]. reflexivity.
Qed.

Lemma twf_swap_bij : bij_on (@w4 32) (@w4 32) (fun x => Ok (twf_swap x)) (fun x => Ok (twf_swap x)).
Proof. apply bij_pure; intros [[[a b] c] d] (Ha & Hb & Hc & Hd); repeat split; assumption. Qed.

(** For an even number of rounds. *)
Lemma twf_bij s m : words_ok 32 (twf_k s) -> twf_r s = 2 * N.of_nat m -> length (twf_k s) = (2 * (2 * m + 4))%nat ->
  bij_on (blk 16) (blk 16) (twofish_encrypt s) (twofish_decrypt s).
Proof.
  intros Hw Hr Hl.
  assert (E : N.to_nat (twf_r s / 2) = m) by (rewrite Hr, N.mul_comm, N.div_mul by discriminate; apply Nat2N.id).
  assert (E2 : N.to_nat (twf_r s) = (2 * m)%nat) by (rewrite Hr; lia).
  set (F := fun x => let* y := twf_white s 0 x in
                     let* z := mfor m 0 (fun i => twf_enc_round s (8 + 4 * i)) y in
                     let* u := Ok (twf_swap z) in twf_white s 4 u).
  set (G := fun x => let* y := (let* z := (let* u := twf_white s 4 x in Ok (twf_swap u)) in
                     mford m (fun i => twf_dec_round s (8 + 4 * i)) z) in twf_white s 0 y).
  assert (B : bij_on (@w4 32) (@w4 32) F G).
  { unfold F, G. apply (bij_comp _ (@w4 32)); [apply twf_white_bij; [exact Hw|lia]|].
    apply (bij_comp _ (@w4 32) _ (mfor m 0 (fun i => twf_enc_round s (8 + 4 * i))) (mford m (fun i => twf_dec_round s (8 + 4 * i)))
      (fun z => bind (Ok (twf_swap z)) (twf_white s 4)) (fun x => bind (twf_white s 4 x) (fun u => Ok (twf_swap u)))).
    - apply bij_loop. intros j Hj. apply twf_round_bij; [exact Hw|lia].
    - apply (bij_comp _ (@w4 32)); [apply twf_swap_bij|apply twf_white_bij; [exact Hw|lia]]. }
  pose proof (lift_bij (blk 16) (@w4 32) _ _ _ _ (ld4_bij codec32l) B) as L.
  eapply bij_ext; [| |exact L].
  - intros x _. unfold twofish_encrypt, F. rewrite E.
    destruct (twf_white s 0 _); cbn [bind]; [|reflexivity]. destruct (mfor m 0 _ _); reflexivity.
  - intros x _. unfold twofish_decrypt, G. cbv zeta. rewrite E, E2.
    destruct (twf_white s 4 _); cbn [bind]; [|reflexivity].
    rewrite (mford_ext m (fun i y => twf_dec_round s (4 + 2 * (2 * m) - 4 * (m - 1 - i)) y) (fun i => twf_dec_round s (8 + 4 * i))).
    + destruct (mford m _ _); reflexivity.
    + intros j y Hj. replace (4 + 2 * (2 * m) - 4 * (m - 1 - j))%nat with (8 + 4 * j)%nat by lia. reflexivity.
Qed.

Lemma twf_sub_ok len k x : regs 32 2 (twf_sub len k x).
Proof. unfold twf_sub. regs_list. Qed.

Lemma twf_keys_ok len k l : length (flat_map (twf_sub len k) l) = (2 * length l)%nat /\ words_ok 32 (flat_map (twf_sub len k) l).
Proof.
  induction l as [|x l [L W]]; [split; [reflexivity|constructor]|].
  destruct (twf_sub_ok len k x) as [L2 W2]. cbn [flat_map length]. rewrite app_length, L2, L. split; [lia|].
  apply Forall_app. now split.
Qed.

Lemma twofish_perm m key : key_ok 32 key -> (m < 2 ^ 28 - 2)%N ->
  exists s, twofish_create (2 * m) key = Ok s /\ permutation 16 (twofish_encrypt s) (twofish_decrypt s).
Proof.
  intros Hk Hm. set (r := twofish_rounds (2 * m)). exists (twf_setup r key).
  change (2 ^ 28 - 2) with 268435454 in Hm.
  assert (E : exists m', r = 2 * m' /\ m' < 268435454).
  { unfold r, twofish_rounds. destruct (2 * m =? 0) eqn:Z; [exists 8; split; [reflexivity|lia]|exists m; split; [reflexivity|lia]]. }
  destruct E as (m' & E & Hm'). split.
  - unfold twofish_create. rewrite assert_true by now apply key_len_ok_true. cbv zeta. fold r.
    rewrite fits_ok; [reflexivity|]. unfold wshl, wadd.
    change (N.shiftl r 1) with (N.shiftl r 1). rewrite !N.shiftl_mul_pow2. change (2 ^ 1) with 2. change (2 ^ 2) with 4.
    rewrite (mask_id 32 (r * 2)) by (unfold inw; change (2 ^ 32) with 4294967296; lia).
    rewrite (mask_id 32 (r * 2 + 8)) by (unfold inw; change (2 ^ 32) with 4294967296; lia).
    rewrite mask_id by (unfold inw; change (2 ^ 32) with 4294967296; lia).
    rewrite N.div_mul by discriminate. lia.
  - apply perm_of_bij, (twf_bij _ (N.to_nat m')).
    + apply twf_keys_ok.
    + cbn [twf_setup twf_r]. rewrite N2Nat.id. exact E.
    + cbn [twf_setup twf_k]. rewrite (proj1 (twf_keys_ok _ _ _)), seq_length, E. lia.
Qed.

(** An odd number of rounds: the subkeys of the decryption are two words off. *)
Definition twf_odd_bad (r : N) (key pt : list N) : bool :=
  match (let* s := twofish_create r key in let* c := twofish_encrypt s pt in twofish_decrypt s c) with
  | Ok p => negb (forallb (fun ab => fst ab =? snd ab) (combine p pt))
  | Err _ => false
  end.
Lemma twofish_odd : twf_odd_bad 3 (repeat 0 16) (repeat 0 16) = true.
Proof. vm_compute. reflexivity. Qed.
