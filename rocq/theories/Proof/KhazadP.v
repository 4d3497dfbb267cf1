From Coq Require Import NArith Arith List Bool Lia.
From Verif Require Import Lib.Word Lib.Res Lib.Bytes Lib.BlockLemmas Lib.Bij Lib.Bits Lib.Lin Lib.Spn Lib.Tele Lib.Feistel Spec.Block
  Model.LoadStore Model.BlockApi Model.Table Model.Khazad Proof.TableP.
Import ListNotations.
Local Open Scope N_scope.

(** the S-box, found in the last byte of t7 *)
Definition khz_s (b : N) : N := byte (tab8 khz_t7 b).
Definition khz_c : list (list N) :=
  Eval vm_compute in map (fun t => cols t khz_s) [khz_t0; khz_t1; khz_t2; khz_t3; khz_t4; khz_t5; khz_t6; khz_t7].

Lemma khz_s_bound b : b < 256 -> khz_s b < 256.
Proof. intros _. unfold khz_s. rewrite byte_mod. apply N.mod_lt. discriminate. Qed.
Lemma khz_s_s b : b < 256 -> khz_s (khz_s b) = b.
Proof.
  intros Hb. apply N.eqb_eq. revert b Hb. intros b Hb.
  apply (bytes_check (fun b => khz_s (khz_s b) =? b)); [vm_compute; reflexivity|exact Hb].
Qed.
Lemma khz_lins :
  forallb (fun p => tab_lin (fst p) (snd p) khz_s)
    (combine [khz_t0; khz_t1; khz_t2; khz_t3; khz_t4; khz_t5; khz_t6; khz_t7] khz_c) = true.
Proof. vm_compute. reflexivity. Qed.
Lemma khz_msks :
  forallb (fun p => tab_msk (fst p) (N.shiftl 255 (snd p)) (snd p) khz_s)
    (combine [khz_t0; khz_t1; khz_t2; khz_t3; khz_t4; khz_t5; khz_t6; khz_t7] [56; 48; 40; 32; 24; 16; 8; 0]) = true.
Proof. vm_compute. reflexivity. Qed.

Definition khz_l (x : N) : N := mixw 8 khz_c x.
Definition khz_sub (x : N) : N := subw 8 khz_s x.

Lemma khz_bytes x : be_bytes 8 x =
  [byte (wshr x 56); byte (wshr x 48); byte (wshr x 40); byte (wshr x 32); byte (wshr x 24); byte (wshr x 16); byte (wshr x 8); byte x].
Proof.
  rewrite !be_bytes_S. unfold be_bytes at 1. cbn [le_bytes rev].
  replace (wshr x (8 * N.of_nat 0)) with x by (unfold wshr; change (8 * N.of_nat 0) with 0; now rewrite N.shiftr_0_r).
  reflexivity.
Qed.
Lemma khz_split t0 t1 t2 t3 t4 t5 t6 t7 c s x :
  forallb (fun p => tab_lin (fst p) (snd p) s) (combine [t0; t1; t2; t3; t4; t5; t6; t7] c) = true -> length c = 8%nat ->
  N.lxor (N.lxor (N.lxor (N.lxor (N.lxor (N.lxor (N.lxor
    (tab8 t0 (wshr x 56)) (tab8 t1 (wshr x 48))) (tab8 t2 (wshr x 40))) (tab8 t3 (wshr x 32)))
    (tab8 t4 (wshr x 24))) (tab8 t5 (wshr x 16))) (tab8 t6 (wshr x 8))) (tab8 t7 x) = mixl c (map s (be_bytes 8 x)).
Proof.
  intros H Hc. rewrite khz_bytes. cbn [map]. do 8 (destruct c as [|? c]; [discriminate Hc|]). destruct c; [clear Hc|discriminate Hc].
  cbn [combine forallb fst snd] in H. repeat (apply andb_prop in H; destruct H as [? H]).
  cbn [mixl]. rewrite N.lxor_0_r.
  repeat match goal with E : tab_lin ?t ?c ?s = true |- _ => rewrite !(fun b => tab_lin_eq t c s b E); clear E end.
  rewrite !N.lxor_assoc. reflexivity.
Qed.
Lemma khz_split_inv t0 t1 t2 t3 t4 t5 t6 t7 c s x :
  forallb (fun p => tab_lin (fst p) (snd p) s) (combine [t0; t1; t2; t3; t4; t5; t6; t7] c) = true -> length c = 8%nat ->
  (forall b, s (byte (tab8 t7 b)) = byte b) ->
  N.lxor (N.lxor (N.lxor (N.lxor (N.lxor (N.lxor (N.lxor
    (tab8 t0 (tab8 t7 (wshr x 56))) (tab8 t1 (tab8 t7 (wshr x 48))))
    (tab8 t2 (tab8 t7 (wshr x 40)))) (tab8 t3 (tab8 t7 (wshr x 32))))
    (tab8 t4 (tab8 t7 (wshr x 24)))) (tab8 t5 (tab8 t7 (wshr x 16))))
    (tab8 t6 (tab8 t7 (wshr x 8)))) (tab8 t7 (tab8 t7 x)) = mixl c (be_bytes 8 x).
Proof.
  intros H Hc Hs. rewrite khz_bytes. do 8 (destruct c as [|? c]; [discriminate Hc|]). destruct c; [clear Hc|discriminate Hc].
  cbn [combine forallb fst snd] in H. repeat (apply andb_prop in H; destruct H as [? H]).
  assert (Q : forall t c b, tab_lin t c s = true -> tab8 t (tab8 t7 b) = lin c (byte b)).
  { intros t c b E. rewrite (tab_lin_eq t c s _ E). f_equal. apply Hs. }
  cbn [mixl]. rewrite N.lxor_0_r.
  repeat match goal with E : tab_lin ?t ?c ?s = true |- _ => rewrite !(fun b => Q t c b E); clear E end.
  rewrite !N.lxor_assoc. reflexivity.
Qed.
Lemma khz_split_last t0 t1 t2 t3 t4 t5 t6 t7 s x :
  forallb (fun p => tab_msk (fst p) (N.shiftl 255 (snd p)) (snd p) s)
    (combine [t0; t1; t2; t3; t4; t5; t6; t7] [56; 48; 40; 32; 24; 16; 8; 0]) = true -> (forall b, b < 256 -> s b < 256) ->
  N.lxor (N.lxor (N.lxor (N.lxor (N.lxor (N.lxor (N.lxor
    (N.land (tab8 t0 (wshr x 56)) 0xFF00000000000000) (N.land (tab8 t1 (wshr x 48)) 0x00FF000000000000))
    (N.land (tab8 t2 (wshr x 40)) 0x0000FF0000000000)) (N.land (tab8 t3 (wshr x 32)) 0x000000FF00000000))
    (N.land (tab8 t4 (wshr x 24)) 0x00000000FF000000)) (N.land (tab8 t5 (wshr x 16)) 0x0000000000FF0000))
    (N.land (tab8 t6 (wshr x 8)) 0x000000000000FF00)) (N.land (tab8 t7 x) 0x00000000000000FF) = subw 8 s x.
Proof.
  intros H Hs. unfold subw. rewrite khz_bytes. cbn [map].
  cbn [combine forallb fst snd] in H. repeat (apply andb_prop in H; destruct H as [? H]).
  assert (B : forall b, s (byte b) < 256) by (intros b; apply Hs; rewrite byte_mod; apply N.mod_lt; discriminate).
  repeat (rewrite be_val_cons by (repeat (constructor; [apply B|]); constructor)).
  change (be_val []) with 0. rewrite N.lxor_0_r. cbn [length].
  change (8 * N.of_nat 7) with 56. change (8 * N.of_nat 6) with 48. change (8 * N.of_nat 5) with 40. change (8 * N.of_nat 4) with 32.
  change (8 * N.of_nat 3) with 24. change (8 * N.of_nat 2) with 16. change (8 * N.of_nat 1) with 8. change (8 * N.of_nat 0) with 0.
  change 0xFF00000000000000 with (N.shiftl 255 56). change 0x00FF000000000000 with (N.shiftl 255 48).
  change 0x0000FF0000000000 with (N.shiftl 255 40). change 0x000000FF00000000 with (N.shiftl 255 32).
  change 0x00000000FF000000 with (N.shiftl 255 24). change 0x0000000000FF0000 with (N.shiftl 255 16).
  change 0x000000000000FF00 with (N.shiftl 255 8). change 0x00000000000000FF with (N.shiftl 255 0).
  repeat match goal with E : tab_msk ?t ?m ?sh ?s = true |- _ => rewrite !(fun b => tab_msk_eq t m sh s b E); clear E end.
  rewrite !N.lxor_assoc. reflexivity.
Qed.

Lemma khz_t_eq x : khz_t x = khz_l (khz_sub x).
Proof.
  unfold khz_l, mixw, khz_sub. rewrite be_bytes_subw by exact khz_s_bound.
  exact (khz_split khz_t0 khz_t1 khz_t2 khz_t3 khz_t4 khz_t5 khz_t6 khz_t7 khz_c khz_s x khz_lins eq_refl).
Qed.
Lemma khz_inv_eq x : khz_inv x = khz_l x.
Proof.
  apply (khz_split_inv khz_t0 khz_t1 khz_t2 khz_t3 khz_t4 khz_t5 khz_t6 khz_t7 khz_c khz_s x khz_lins eq_refl).
  intros b. assert (Hb : byte b < 256) by (rewrite byte_mod; apply N.mod_lt; discriminate).
  transitivity (khz_s (khz_s (byte b))); [|now apply khz_s_s].
  f_equal. unfold khz_s, tab8. now rewrite byte_byte.
Qed.
Lemma khz_last_eq x : khz_last x = khz_sub x.
Proof. exact (khz_split_last khz_t0 khz_t1 khz_t2 khz_t3 khz_t4 khz_t5 khz_t6 khz_t7 khz_s x khz_msks khz_s_bound). Qed.

Lemma khz_l_inw x : inw 64 (khz_l x).
Proof.
  apply mixl_inw. apply Forall_forall. intros c Hc. assert (F : forallb (forallb (fun x => x <? 2 ^ 64)) khz_c = true) by (vm_compute; reflexivity).
  rewrite forallb_forall in F. specialize (F c Hc). rewrite forallb_forall in F. apply Forall_forall. intros x0 Hx0. apply N.ltb_lt. now apply F.
Qed.
Lemma khz_l_l x : inw 64 x -> khz_l (khz_l x) = x.
Proof.
  intros Hx. apply (xlin_ext 64 (fun x => khz_l (khz_l x)) (fun x => x)); [|apply xlin_id|vm_compute; reflexivity|exact Hx].
  intros a b _ _. unfold khz_l. now rewrite !mixw_lxor.
Qed.
Lemma khz_sub_inw x : inw 64 (khz_sub x).
Proof. apply subw_inw; [exact khz_s_bound|reflexivity]. Qed.
Lemma khz_sub_sub x : inw 64 x -> khz_sub (khz_sub x) = x.
Proof. intros Hx. apply (subw_subw 8 khz_s khz_s x 64); [exact khz_s_bound|exact khz_s_s|reflexivity|exact Hx]. Qed.

(** ** The key schedule *)
Lemma khz_keys_ok n : forall i k0 k1, (i + n <= 9)%nat -> inw 64 k0 -> inw 64 k1 ->
  exists ks, khz_keys n i k0 k1 = Ok ks /\ length ks = n /\ words_ok 64 ks.
Proof.
  assert (RC : words_ok 64 khz_rc) by (apply words_okb; vm_compute; reflexivity).
  induction n as [|n IH]; intros i k0 k1 Hi H0 H1; cbn [khz_keys].
  - exists []. repeat split. constructor.
  - rewrite (get_ok _ _ 0) by (change (length khz_rc) with 9%nat; lia). cbn [bind].
    set (k := N.lxor (N.lxor (khz_t k0) (nth i khz_rc 0)) k1).
    assert (K : inw 64 k).
    { unfold k. apply inw_lxor; [apply inw_lxor|exact H1]; [rewrite khz_t_eq; apply khz_l_inw|now apply words_nth]. }
    destruct (IH (S i) k k0 ltac:(lia) K H0) as (ks & E & L & W). rewrite E. cbn [bind].
    exists (k :: ks). repeat split; [cbn [length]; lia|now constructor].
Qed.
Lemma khz_keys_oob n : forall i k0 k1, (i <= 9)%nat -> (9 < i + n)%nat -> khz_keys n i k0 k1 = Err OobRead.
Proof.
  induction n as [|n IH]; intros i k0 k1 Hi Hn; [lia|]. cbn [khz_keys].
  destruct (Nat.eq_dec i 9) as [->|N9]; [reflexivity|].
  rewrite (get_ok _ _ 0) by (change (length khz_rc) with 9%nat; lia). cbn [bind].
  rewrite IH by lia. reflexivity.
Qed.
Lemma khz_key_inw key : bytes_ok key -> inw 64 (fst (khz_key key)) /\ inw 64 (snd (khz_key key)).
Proof.
  intros Hk. unfold khz_key. cbn [fst snd].
  assert (B : bytes_ok (key ++ repeat 0 (16 - length key))) by (apply bytes_app; split; [exact Hk|apply bytes_repeat0]).
  split; apply (c_inw _ _ _ _ codec64b); exact B.
Qed.

Lemma khz_crypt_eq k r blk : length k = S (N.to_nat r) -> 0 < r ->
  khz_crypt k r blk = Ok (store64b (spn N.lxor khz_l (fun _ => khz_sub) (N.to_nat r - 1) (fun i => nth i k 0) (load64b blk 0))).
Proof.
  intros Hl Hr. unfold khz_crypt, spn. rewrite (get_ok _ _ 0) by lia. cbn [bind].
  rewrite (mfor_ext (N.to_nat r - 1) 1 _ (fun i x => Ok (N.lxor (khz_l (khz_sub x)) (nth i k 0)))).
  - rewrite mfor_Ok. cbn [bind]. rewrite (get_ok _ _ 0) by lia. cbn [bind].
    rewrite khz_last_eq. replace (S (N.to_nat r - 1)) with (N.to_nat r) by lia. reflexivity.
  - intros j y Hj. rewrite (get_ok _ _ 0) by lia. cbn [bind]. now rewrite khz_t_eq.
Qed.

Lemma load64b_bij : bij_on (blk 8) (inw 64) (fun l => Ok (load64b l 0)) (fun x => Ok (store64b x)).
Proof.
  apply bij_pure.
  - intros l [Hl Hb]. split; [now apply (c_inw _ _ _ _ codec64b)|].
    rewrite (c_stld _ _ _ _ codec64b) by (auto; lia). unfold slice. cbn [skipn]. apply firstn_all2. lia.
  - intros x Hx. split; [split; [apply (c_len _ _ _ _ codec64b)|apply (c_bytes _ _ _ _ codec64b)]|].
    pose proof (c_ldst _ _ _ _ codec64b x [] [] Hx) as E. cbn [app length] in E. now rewrite app_nil_r in E.
Qed.

Lemma khazad_perm r key : key_ok 16 key -> r <= 8 ->
  exists s, khazad_create r key = Ok s /\ permutation 8 (khazad_encrypt s) (khazad_decrypt s).
Proof.
  intros Hk Hr. unfold khazad_create. rewrite assert_true by now apply key_len_ok_true. cbv zeta.
  assert (R : 0 < khazad_rounds r <= 8) by (unfold khazad_rounds; destruct (N.eqb_spec r 0); lia).
  set (q := khazad_rounds r) in *. clearbody q. clear Hr r.
  rewrite fits_ok.
  2: { unfold wshl, wadd. rewrite N.shiftl_mul_pow2. change (2 ^ 4) with 16.
       rewrite !mask_id by (rewrite ?mask_id by (unfold inw; change (2 ^ 32) with 4294967296; lia); unfold inw; change (2 ^ 32) with 4294967296; lia).
       apply N.div_le_lower_bound; lia. }
  destruct (khz_key_inw key (proj1 Hk)) as [K0 K1]. unfold khz_setup. destruct (khz_key key) as [k0 k1]. cbn [fst snd] in K0, K1.
  destruct (khz_keys_ok (S (N.to_nat q)) 0 k0 k1 ltac:(lia) K0 K1) as (k & -> & Hl & Hw). cbn [bind].
  eexists. split; [reflexivity|]. apply perm_of_bij. unfold khazad_encrypt, khazad_decrypt. cbn [khz_k khz_r khz_dk].
  set (n := N.to_nat q) in *.
  set (dk := nth n k 0 :: map (fun i => khz_inv (nth (n - i) k 0)) (seq 1 (n - 1)) ++ [nth 0 k 0]).
  assert (Ld : length dk = S n) by (unfold dk; cbn [length]; rewrite app_length, map_length, seq_length; cbn [length]; lia).
  assert (B : pbij (inw 64) (spn N.lxor khz_l (fun _ => khz_sub) (n - 1) (fun i => nth i k 0))
                            (spn N.lxor khz_l (fun _ => khz_sub) (n - 1) (fun i => nth i dk 0))).
  { assert (En : S (n - 1) = n) by lia.
    apply spn_pbij.
    - intros a b Ha Hb. now apply inw_lxor.
    - intros a b _ _. now rewrite N.lxor_assoc, N.lxor_nilpotent, N.lxor_0_r.
    - intros a _. apply khz_l_inw.
    - intros a b _ _. apply mixw_lxor.
    - intros a Ha. now apply khz_l_l.
    - intros i a _ _. apply khz_sub_inw.
    - intros i a _ _. apply khz_sub_inw.
    - intros i _. now apply words_nth.
    - intros i a _ Ha. now apply khz_sub_sub.
    - intros i a _ Ha. now apply khz_sub_sub.
    - rewrite En. reflexivity.
    - rewrite En. unfold dk. destruct n as [|n'] eqn:E; [lia|]. cbn [nth].
      rewrite app_nth2; rewrite map_length, seq_length; [|lia]. replace (n' - (S n' - 1))%nat with 0%nat by lia. reflexivity.
    - intros i Hi. rewrite En. unfold dk. destruct i as [|i]; [lia|]. cbn [nth].
      rewrite app_nth1 by (rewrite map_length, seq_length; lia).
      rewrite (nth_indep _ 0 (khz_inv (nth (n - 0) k 0))) by (rewrite map_length, seq_length; lia).
      rewrite (map_nth (fun i => khz_inv (nth (n - i) k 0)) (seq 1 (n - 1)) 0%nat i), seq_nth by lia.
      rewrite khz_inv_eq. reflexivity. }
  pose proof (lift_bij (blk 8) (inw 64) _ _ _ _ load64b_bij (pbij_bij _ _ _ B)) as G.
  eapply bij_ext; [| |exact G]; intros x _; cbn [bind]; symmetry; apply khz_crypt_eq; lia.
Qed.

(** more than eight rounds read behind the round constants *)
Lemma khazad_many_rounds r key : key_ok 16 key -> 8 < r < 2 ^ 28 - 1 -> khazad_create r key = Err OobRead.
Proof.
  intros Hk Hr. change (2 ^ 28) with 268435456 in Hr. unfold khazad_create. rewrite assert_true by now apply key_len_ok_true. cbv zeta.
  unfold khazad_rounds. rewrite (proj2 (N.eqb_neq r 0)) by lia.
  rewrite fits_ok.
  2: { unfold wshl, wadd. rewrite N.shiftl_mul_pow2. change (2 ^ 4) with 16.
       rewrite !mask_id by (rewrite ?mask_id by (unfold inw; change (2 ^ 32) with 4294967296; lia); unfold inw; change (2 ^ 32) with 4294967296; lia).
       apply N.div_le_lower_bound; lia. }
  unfold khz_setup. destruct (khz_key key) as [k0 k1]. cbv zeta. rewrite khz_keys_oob by lia. reflexivity.
Qed.
