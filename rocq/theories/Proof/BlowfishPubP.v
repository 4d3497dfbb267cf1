(** Blowfish is the published cipher. *)
From Coq Require Import NArith Arith List Bool Lia.
From Verif Require Import Lib.Word Lib.Res Lib.Bytes Lib.Bits Lib.Bij Lib.Lists Lib.Feistel Lib.BlockLemmas Lib.WordSpec Lib.WordsP
  Spec.Words Spec.Block Spec.Arx Spec.Pub8 Model.LoadStore Model.BlockApi Model.Table Model.Blowfish Model.Ciphers
  Proof.LoadStoreP Proof.Sha1P Proof.ArxP Proof.PubLib Proof.TableP Proof.BlowfishP Proof.RekeyP Proof.CiphersP Proof.ScryptP.
Import ListNotations.
Local Open Scope N_scope.

Lemma pi_words_eq : pi_words = firstn 1042 bf_pi.
Proof. vm_compute. reflexivity. Qed.
Lemma length_pi_words : length pi_words = 1042%nat.
Proof. vm_compute. reflexivity. Qed.
Lemma length_bf_pi : length bf_pi = 1060%nat.
Proof. vm_compute. reflexivity. Qed.

(** the arrays of the object as one list *)
Definition bf_all (s : blowfish) : list N := bf_p s ++ bf_s0 s ++ bf_s1 s ++ bf_s2 s ++ bf_s3 s.
Definition bf_shape (s : blowfish) : Prop :=
  bf_r s = 16 /\ length (bf_p s) = 18%nat /\ length (bf_s0 s) = 256%nat /\ length (bf_s1 s) = 256%nat /\
  length (bf_s2 s) = 256%nat /\ length (bf_s3 s) = 256%nat /\ words_ok 32 (bf_p s).
Lemma be_byte x i : (i < 4)%nat -> nth i (be_bytes 4 x) 0 = byte (wshr x (8 * N.of_nat (3 - i))).
Proof.
  intros H. rewrite <- store32b_bytes. destruct i as [|[|[|[|i]]]]; try lia; [exact eq_refl..|]. unfold wshr. cbn [store32b nth]. now rewrite N.shiftr_0_r.
Qed.
Lemma byte_small x : (N.to_nat (byte x) < 256)%nat.
Proof. pose proof (byte_lt x). lia. Qed.
Lemma all_p s i : bf_shape s -> (i < 18)%nat -> nth i (bf_all s) 0 = nth i (bf_p s) 0.
Proof. intros (_ & L & _) H. unfold bf_all. apply app_nth1. lia. Qed.
Lemma all_s s x : bf_shape s ->
  bfish_S (bf_all s) 0 (byte x) = tab8 (bf_s0 s) x /\ bfish_S (bf_all s) 1 (byte x) = tab8 (bf_s1 s) x /\
  bfish_S (bf_all s) 2 (byte x) = tab8 (bf_s2 s) x /\ bfish_S (bf_all s) 3 (byte x) = tab8 (bf_s3 s) x.
Proof.
  intros (_ & L & L0 & L1 & L2 & L3 & _). pose proof (byte_small x) as B. unfold bfish_S, tab8, bf_all.
  set (k := N.to_nat (byte x)) in *. clearbody k.
  split; [|split; [|split]].
  - rewrite app_nth2, app_nth1 by lia. f_equal. lia.
  - rewrite app_nth2, app_nth2, app_nth1 by lia. f_equal. lia.
  - rewrite app_nth2, app_nth2, app_nth2, app_nth1 by lia. f_equal. lia.
  - rewrite app_nth2, app_nth2, app_nth2, app_nth2 by lia. f_equal. lia.
Qed.
Lemma bf_f_pub s x : bf_shape s -> bf_f s x = bfish_F (bf_all s) x.
Proof.
  intros H. unfold bf_f, bfish_F. cbv zeta. rewrite !be_byte by lia.
  rewrite (proj1 (all_s s _ H)), (proj1 (proj2 (all_s s _ H))), (proj1 (proj2 (proj2 (all_s s _ H)))), (proj2 (proj2 (proj2 (all_s s _ H)))).
  rewrite !add32_wadd. f_equal.
Qed.
Lemma bf_block s x : bf_shape s -> bf_crypt s (fun i => i) x = Ok (bfish_block (bf_all s) x).
Proof.
  intros H. pose proof H as (R & L & _). rewrite bf_crypt_eq by (rewrite R; first [exact L|now intros]). f_equal. rewrite R. change (N.to_nat 16) with 16%nat.
  unfold bf_pure. pose proof (bf_regroup (bf_f s) (fun i => nth i (bf_p s) 0) 16 x) as G. cbv beta in G |- *. rewrite <- G. clear G. unfold bfish_block.
  pose proof (pfor_fold (fun _ (x y : N * N) => x = y) 16 0 (fun i => bf_half (bf_f s) (nth i (bf_p s) 0)) (bfish_round (bf_all s)) x x) as P. cbv beta in P.
  rewrite <- P; [|intros t y u Ht ->; destruct u as [a b]; unfold bf_half, bfish_round; cbn [fst snd]; rewrite <- (bf_f_pub s _ H), (all_p s t H) by lia; f_equal; apply N.lxor_comm|reflexivity].
  destruct (pfor 16 0 _ x) as [a b]. unfold bf_add, bf_sw. cbn [fst snd Nat.add]. rewrite !(all_p s _ H) by lia. reflexivity.
Qed.

(** ** The key schedule *)
Lemma upd_app1 (a b : list N) i v : (i < length a)%nat -> upd (a ++ b) i v = upd a i v ++ b.
Proof. revert i. induction a as [|x a IH]; intros i H; cbn [length] in H; [lia|]. destruct i as [|i]; [reflexivity|]. cbn [app upd]. f_equal. apply IH. lia. Qed.
Lemma upd_app2 (a b : list N) i v : upd (a ++ b) (length a + i) v = a ++ upd b i v.
Proof. induction a as [|x a IH]; [reflexivity|]. cbn [length Nat.add app upd]. now rewrite IH. Qed.
Lemma fold_inv {A} (P : A -> Prop) (f : A -> nat -> A) n : forall i x, (forall t y, (i <= t < i + n)%nat -> P y -> P (f y t)) -> P x -> P (fold_left f (seq i n) x).
Proof. induction n as [|n IH]; intros i x Hs Hx; [exact Hx|]. cbn [seq fold_left]. apply IH; [intros; apply Hs; [lia|assumption]|]. apply Hs; [lia|exact Hx]. Qed.
Definition places (set : nat -> N -> blowfish -> blowfish) (n o : nat) : Prop :=
  forall s i v, bf_shape s -> (i < n)%nat -> inw 32 v -> bf_shape (set i v s) /\ bf_all (set i v s) = upd (bf_all s) (o + i) v.
Lemma set_places : places bf_set_p 18 0 /\ places bf_set_s0 256 18 /\ places bf_set_s1 256 274 /\ places bf_set_s2 256 530 /\ places bf_set_s3 256 786.
Proof.
  split; [|split; [|split; [|split]]]; intros s i v (R & L & L0 & L1 & L2 & L3 & W) Hi Hv; (split; [unfold bf_shape; cbn; rewrite ?length_upd; repeat split; try assumption; now apply Forall_upd|]);
    unfold bf_all; cbn [bf_set_p bf_set_s0 bf_set_s1 bf_set_s2 bf_set_s3 bf_p bf_s0 bf_s1 bf_s2 bf_s3].
  - rewrite upd_app1 by lia. reflexivity.
  - replace (18 + i)%nat with (length (bf_p s) + i)%nat by lia. rewrite upd_app2, upd_app1 by lia. reflexivity.
  - replace (274 + i)%nat with (length (bf_p s) + (length (bf_s0 s) + i))%nat by lia. rewrite !upd_app2, upd_app1 by lia. reflexivity.
  - replace (530 + i)%nat with (length (bf_p s) + (length (bf_s0 s) + (length (bf_s1 s) + i)))%nat by lia. rewrite !upd_app2, upd_app1 by lia. reflexivity.
  - replace (786 + i)%nat with (length (bf_p s) + (length (bf_s0 s) + (length (bf_s1 s) + (length (bf_s2 s) + i))))%nat by lia. rewrite !upd_app2. reflexivity.
Qed.
Definition follows (sb : blowfish * list N) (st : list N * (N * N)) : Prop :=
  bf_shape (fst sb) /\ bf_all (fst sb) = fst st /\ snd sb = be_string 4 [fst (snd st); snd (snd st)] /\ inw 32 (fst (snd st)) /\ inw 32 (snd (snd st)).
Lemma bf_F_inw W x : inw 32 (bfish_F W x).
Proof. unfold bfish_F. cbv zeta. rewrite add32_wadd. wb. Qed.
Lemma block_inw s x : bf_shape s -> inw 32 (fst x) -> inw 32 (snd x) -> inw 32 (fst (bfish_block (bf_all s) x)) /\ inw 32 (snd (bfish_block (bf_all s) x)).
Proof.
  intros H H1 H2. assert (K : forall i, (i < 18)%nat -> inw 32 (nth i (bf_all s) 0)).
  { intros i Hi. rewrite all_p by assumption. apply Bytes.words_nth, H. }
  assert (P : let v := fold_left (bfish_round (bf_all s)) (seq 0 16) x in inw 32 (fst v) /\ inw 32 (snd v)).
  { apply (fold_inv (fun v => inw 32 (fst v) /\ inw 32 (snd v))); [|now split]. intros t [a b] Ht [Ha Hb]. cbn [fst snd] in Ha, Hb. unfold bfish_round. cbn [fst snd].
    split; apply inw_lxor; first [assumption|apply bf_F_inw|apply K; lia]. }
  cbv zeta in P. unfold bfish_block. destruct (fold_left _ _ _) as [a b]. cbn [fst snd] in *. split; apply inw_lxor; first [apply P|apply K; lia].
Qed.

Lemma fold_from {A} (G : A -> nat -> A) o n : forall i x, fold_left (fun u t => G u (o + t)%nat) (seq i n) x = fold_left G (seq (o + i) n) x.
Proof. induction n as [|n IH]; intros i x; [reflexivity|]. cbn [seq fold_left]. rewrite IH. now rewrite Nat.add_succ_r. Qed.
Lemma half_odd n : ((2 * n + 1) / 2)%nat = n.
Proof. rewrite Nat.mul_comm, Nat.div_add_l by lia. change (1 / 2)%nat with 0%nat. lia. Qed.
Lemma string_word2 a b : inw 32 a -> inw 32 b -> be_words 4 2 (be_string 4 [a; b]) = [a; b].
Proof. intros Ha Hb. apply (be_words_string 4 32 [a; b]); [reflexivity|]. repeat constructor; assumption. Qed.
Lemma blk_word2 a b : blk 8 (be_string 4 [a; b]).
Proof. split; [now rewrite length_be_string|apply bytes_be_string]. Qed.
Lemma bf_encrypt_pub s a b : bf_shape s -> inw 32 a -> inw 32 b ->
  blowfish_encrypt s (be_string 4 [a; b]) = Ok (be_string 4 [fst (bfish_block (bf_all s) (a, b)); snd (bfish_block (bf_all s) (a, b))]).
Proof.
  intros H Ha Hb. unfold blowfish_encrypt. rewrite ld2_be32 by apply blk_word2. rewrite string_word2 by assumption. cbn [word nth].
  rewrite (bf_block s _ H). cbn [bind]. unfold word. cbn [nth]. destruct (bfish_block _ _) as [c d]. now rewrite st2_be32.
Qed.
Lemma load_word2 a b : inw 32 a -> inw 32 b -> load32b (be_string 4 [a; b]) 0 = a /\ load32b (be_string 4 [a; b]) 4 = b.
Proof.
  intros Ha Hb. pose proof (ld2_be32 _ (blk_word2 a b)) as E. rewrite string_word2 in E by assumption. unfold ld2, word in E. cbn [nth] in E. now injection E.
Qed.
Lemma fill_follows set n o sb st : places set (2 * n) (2 * o) -> follows sb st ->
  exists sb', bf_fill set (2 * n) sb = Ok sb' /\ follows sb' (fold_left bfish_replace (seq o n) st).
Proof.
  intros Hp Hf. unfold bf_fill. rewrite half_odd. rewrite <- (Nat.add_0_r o), <- fold_from.
  apply (mfor_fold (fun _ => follows)); [|exact Hf].
  intros t [s b] [W [x y]] Ht (H1 & H2 & H3 & H4 & H5). cbn [fst snd] in *. subst W b.
  destruct (block_inw s (x, y) H1 H4 H5) as [I1 I2]. rewrite bf_encrypt_pub by assumption. cbn [bind].
  unfold bfish_replace. set (z := bfish_block (bf_all s) (x, y)) in *. clearbody z.
  destruct (load_word2 _ _ I1 I2) as [-> ->]. rewrite (proj2 (Nat.eqb_neq (2 * t + 1) (2 * n))) by lia.
  destruct (Hp s (2 * t)%nat (fst z) H1 ltac:(lia) I1) as [S1 A1].
  destruct (Hp (set (2 * t)%nat (fst z) s) (2 * t + 1)%nat (snd z) S1 ltac:(lia) I2) as [S2 A2].
  eexists. split; [reflexivity|]. unfold follows. cbn [fst snd].
  split; [exact S2|]. split; [|now split].
  rewrite A2, A1. f_equal; [f_equal|]; lia.
Qed.
Lemma lor_byte x d : x < 2 ^ 24 -> d < 256 -> N.lor (wshl 32 x 8) d = x * 256 + d.
Proof.
  intros Hx Hd. unfold wshl. rewrite mask_id by (red; rewrite N.shiftl_mul_pow2; change (2 ^ 24) with 16777216 in Hx; change (2 ^ 8) with 256; change (2 ^ 32) with 4294967296; lia).
  rewrite N.lor_comm, lor_add by exact Hd. change (2 ^ 8) with 256. lia.
Qed.
Lemma key_word_pub key i : bytes_ok key -> bf_key_word key i = bfish_key_word key i.
Proof.
  intros H. unfold bf_key_word, bfish_key_word. cbv zeta. cbn [seq map].
  assert (B : forall o, nth ((4 * i + o) mod length key) key 0 < 256) by (intros o; now apply bytes_nth).
  generalize (B 0%nat) (B 1%nat) (B 2%nat) (B 3%nat). generalize (nth ((4 * i + 0) mod length key) key 0) (nth ((4 * i + 1) mod length key) key 0) (nth ((4 * i + 2) mod length key) key 0) (nth ((4 * i + 3) mod length key) key 0).
  intros a b c d Ha Hb Hc Hd. clear B. change (2 ^ 24) with 16777216 in *.
  rewrite !lor_byte by (change (2 ^ 24) with 16777216; rewrite ?lor_byte by (change (2 ^ 24) with 16777216; rewrite ?lor_byte by (change (2 ^ 24) with 16777216; lia); lia); lia).
  unfold be_val. cbn [rev app le_val]. lia.
Qed.
Lemma four_slices (l : list N) : slice (18 + 256 * 0) 256 l ++ slice (18 + 256 * 1) 256 l ++ slice (18 + 256 * 2) 256 l ++ slice (18 + 256 * 3) 256 l = skipn 18 (firstn 1042 l).
Proof.
  replace 1042%nat with (18 + 1024)%nat by reflexivity. rewrite skipn_firstn_comm. replace (18 + 1024 - 18)%nat with (256 + (256 + (256 + 256)))%nat by reflexivity.
  fold (slice 18 (256 + (256 + (256 + 256))) l). rewrite !ScryptP.slice_app. reflexivity.
Qed.
Lemma start_follows key : bytes_ok key -> follows ({| bf_r := 16; bf_s0 := slice (18 + 256 * 0) 256 bf_pi; bf_s1 := slice (18 + 256 * 1) 256 bf_pi; bf_s2 := slice (18 + 256 * 2) 256 bf_pi; bf_s3 := slice (18 + 256 * 3) 256 bf_pi;
    bf_p := map (fun i => N.lxor (nth i bf_pi 0) (bf_key_word key i)) (seq 0 18) |}, repeat 0 8) (bfish_start key, (0, 0)).
Proof.
  intros Hk. pose proof length_bf_pi as L. unfold follows. cbn [fst snd]. split; [|split; [|now split]].
  - unfold bf_shape. cbn [bf_r bf_p bf_s0 bf_s1 bf_s2 bf_s3]. rewrite map_length, seq_length, !length_slice by lia. repeat split.
    apply Forall_map, Forall_forall. intros i _. apply inw_lxor; [apply Bytes.words_nth, bf_pi_ok|now apply bf_key_word_inw].
  - unfold bf_all, bfish_start. cbn [bf_p bf_s0 bf_s1 bf_s2 bf_s3]. rewrite pi_words_eq. apply (f_equal2 (@app N)).
    + apply map_ext_in. intros i Hi. apply in_seq in Hi. rewrite (key_word_pub _ _ Hk). f_equal. symmetry. apply nth_firstn. lia.
    + apply four_slices.
Qed.
Lemma seq_521 : seq 0 521 = seq 0 9 ++ seq 9 128 ++ seq 137 128 ++ seq 265 128 ++ seq 393 128.
Proof. reflexivity. Qed.
Lemma fold_five {A} (f : A -> nat -> A) x : fold_left f (seq 0 521) x =
  fold_left f (seq 393 128) (fold_left f (seq 265 128) (fold_left f (seq 137 128) (fold_left f (seq 9 128) (fold_left f (seq 0 9) x)))).
Proof. rewrite seq_521, !fold_left_app. reflexivity. Qed.
Lemma bf_setup_pub key : bytes_ok key -> exists s, bf_setup 16 key = Ok s /\ bf_shape s /\ bf_all s = bfish_words key.
Proof.
  intros Hk. unfold bf_setup. change (34 <? 16) with false. change (N.to_nat 16 + 2)%nat with 18%nat. cbv beta iota zeta.
  destruct set_places as (P & P0 & P1 & P2 & P3).
  pose proof (start_follows key Hk) as F0.
  destruct (fill_follows bf_set_p 9 0 _ _ P F0) as (sb1 & E1 & F1). change (2 * 9)%nat with 18%nat in E1. rewrite E1. cbn [bind].
  destruct (fill_follows bf_set_s0 128 9 _ _ P0 F1) as (sb2 & E2 & F2). change (2 * 128)%nat with 256%nat in E2. rewrite E2. cbn [bind].
  destruct (fill_follows bf_set_s1 128 137 _ _ P1 F2) as (sb3 & E3 & F3). change (2 * 128)%nat with 256%nat in E3. rewrite E3. cbn [bind].
  destruct (fill_follows bf_set_s2 128 265 _ _ P2 F3) as (sb4 & E4 & F4). change (2 * 128)%nat with 256%nat in E4. rewrite E4. cbn [bind].
  destruct (fill_follows bf_set_s3 128 393 _ _ P3 F4) as (sb5 & E5 & F5). change (2 * 128)%nat with 256%nat in E5. rewrite E5. cbn [bind].
  exists (fst sb5). split; [reflexivity|]. unfold bfish_words. rewrite fold_five. split; [exact (proj1 F5)|exact (proj1 (proj2 F5))].
Qed.
Lemma blowfish_create_inv key s : blowfish_create 0 key = Ok s -> bf_setup 16 key = Ok s.
Proof. intros Es. unfold blowfish_create in Es. apply assert_inv in Es. exact (proj2 Es). Qed.
Lemma blowfish_published : is_cipher blowfish_desc (up_to 56) blowfish_cipher.
Proof.
  apply (is_cipher_default _ _ _ blowfish_default); [intros key Hk; exact Hk|].
  intros key s Hb Hk Es pt Hp. apply blowfish_create_inv in Es. cbn [blowfish_desc bc_enc bc_bs] in *.
  destruct (bf_setup_pub key Hb) as (s' & E & H & A). rewrite E in Es. apply Ok_inj in Es. subst s'.
  unfold blowfish_encrypt. rewrite ld2_be32 by exact Hp. rewrite (bf_block s _ H). cbn [bind]. rewrite A. unfold blowfish_cipher. cbv zeta.
  destruct (bfish_block _ _) as [a b]. now rewrite st2_be32.
Qed.
