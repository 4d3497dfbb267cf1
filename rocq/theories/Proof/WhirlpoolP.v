(** Whirlpool of the library (tables of 64 bit words) is Whirlpool of Barreto and Rijmen (matrices of bytes). *)
From Coq Require Import NArith Arith List Bool Lia.
From Verif Require Import Lib.Word Lib.Res Lib.Bytes Lib.WordSpec Lib.MemLemmas Lib.Lists Lib.WordsP Model.LoadStore Model.HashApi Model.Md Model.Whirlpool
  Spec.Words Spec.Modes Spec.Hash Spec.Whirlpool Proof.LoadStoreP Proof.MdP.
Import ListNotations.
Local Open Scope N_scope.

(** byte [j] of a word, the most significant first *)
Definition byte_at (w : N) (j : nat) : N := byte (wshr w (56 - 8 * N.of_nat j)).
Lemma byte_at_lxor a b j : byte_at (N.lxor a b) j = N.lxor (byte_at a j) (byte_at b j).
Proof.
  unfold byte_at, byte, wshr. apply N.bits_inj. intros i.
  rewrite N.lxor_spec, !N.land_spec, N.shiftr_lxor, N.lxor_spec.
  now destruct (N.testbit (N.shiftr a _) i), (N.testbit (N.shiftr b _) i), (N.testbit 255 i).
Qed.
Lemma byte_at_0 j : byte_at 0 j = 0.
Proof. unfold byte_at, wshr. now rewrite N.shiftr_0_l. Qed.
Lemma byte_at_bound w j : byte_at w j < 256.
Proof. unfold byte_at. rewrite byte_mod. now apply N.mod_upper_bound. Qed.
Lemma be_bytes_at w : be_bytes 8 w = map (byte_at w) (seq 0 8).
Proof.
  unfold be_bytes, byte_at. cbn [le_bytes rev app seq map N.of_nat Pos.of_succ_nat Pos.succ]. unfold wshr. rewrite !byte_mod, !N.shiftr_div_pow2.
  rewrite !N.div_div by discriminate.
  change (256 * 256) with (2 ^ 16). change (2 ^ 16 * 256) with (2 ^ 24). change (2 ^ 24 * 256) with (2 ^ 32).
  change (2 ^ 32 * 256) with (2 ^ 40). change (2 ^ 40 * 256) with (2 ^ 48). change (2 ^ 48 * 256) with (2 ^ 56).
  change (56 - 8 * 0) with 56. change (56 - 8 * 1) with 48. change (56 - 8 * 2) with 40. change (56 - 8 * 3) with 32.
  change (56 - 8 * 4) with 24. change (56 - 8 * 5) with 16. change (56 - 8 * 6) with 8. change (56 - 8 * 7) with 0.
  change (2 ^ 0) with 1. change (2 ^ 8) with 256. now rewrite N.div_1_r.
Qed.
Lemma el_string ws i j : (i < length ws)%nat -> (j < 8)%nat -> el (be_string 8 ws) i j = byte_at (nth i ws 0) j.
Proof.
  revert i. induction ws as [|w t IH]; intros i Hi Hj; [cbn in Hi; lia|]. unfold el, be_string. cbn [flat_map].
  destruct i as [|i].
  - rewrite app_nth1 by (rewrite length_be_bytes; lia). rewrite be_bytes_at, nth_map_seq by lia. reflexivity.
  - cbn [length] in Hi. rewrite app_nth2, length_be_bytes by (rewrite length_be_bytes; lia).
    replace (8 * S i + j - 8)%nat with (8 * i + j)%nat by lia. cbn [nth]. apply IH; lia.
Qed.
Lemma el_matrix f i j : (i < 8)%nat -> (j < 8)%nat -> el (matrix f) i j = f i j.
Proof.
  intros Hi Hj. unfold el, matrix. rewrite nth_map_seq by lia. cbn [Nat.add].
  f_equal; [symmetry; apply (Nat.div_unique _ 8 i j); lia|symmetry; apply (Nat.mod_unique _ 8 i j); lia].
Qed.
Lemma el_ext a b : length a = 64%nat -> length b = 64%nat -> (forall i j, (i < 8)%nat -> (j < 8)%nat -> el a i j = el b i j) -> a = b.
Proof.
  intros La Lb H. apply (nth_ext a b 0 0); [congruence|]. intros n Hn. rewrite La in Hn. specialize (H (n / 8)%nat (n mod 8)%nat).
  unfold el in H. rewrite <- Nat.div_mod in H by lia. apply H; [apply Nat.div_lt_upper_bound; lia|apply Nat.mod_upper_bound; lia].
Qed.
Lemma length_matrix f : length (matrix f) = 64%nat.
Proof. unfold matrix. now rewrite map_length, seq_length. Qed.
Lemma length_sigma a b : length (sigma a b) = Nat.min (length a) (length b).
Proof. unfold sigma. now rewrite map_length, combine_length. Qed.
Lemma length_wp_xor a b : length (wp_xor a b) = Nat.min (length a) (length b).
Proof. unfold wp_xor. now rewrite map_length, combine_length. Qed.
Lemma nth_xor a b n : length a = length b -> nth n (map (fun q => N.lxor (fst q) (snd q)) (combine a b)) 0 = N.lxor (nth n a 0) (nth n b 0).
Proof.
  revert b n. induction a as [|x a IH]; intros [|y b] n H; try discriminate H; [destruct n; reflexivity|].
  cbn [combine map]. destruct n as [|n]; [reflexivity|]. cbn [nth]. apply IH. now injection H.
Qed.
Lemma sigma_string x y : length x = 8%nat -> length y = 8%nat -> be_string 8 (wp_xor x y) = sigma (be_string 8 x) (be_string 8 y).
Proof.
  intros Lx Ly. assert (L : length (wp_xor x y) = 8%nat) by (rewrite length_wp_xor, Lx, Ly; reflexivity).
  apply el_ext.
  - now rewrite length_be_string, L.
  - now rewrite length_sigma, !length_be_string, Lx, Ly.
  - intros i j Hi Hj. rewrite el_string by (rewrite ?L; assumption). unfold wp_xor. rewrite nth_xor by congruence. rewrite byte_at_lxor.
    unfold el, sigma. rewrite nth_xor by (rewrite !length_be_string; congruence).
    rewrite <- (el_string x i j), <- (el_string y i j) by (rewrite ?Lx, ?Ly; assumption). reflexivity.
Qed.

(** the tables hold the products of the S-box with the rows of the matrix *)
Definition wp_T (k : nat) : list N := nth k [wp_T0; wp_T1; wp_T2; wp_T3; wp_T4; wp_T5; wp_T6; wp_T7] [].
Lemma sbox_length : length whirlpool_sbox = 256%nat.
Proof. unfold whirlpool_sbox. now rewrite map_length, seq_length. Qed.
Lemma table_check : forallb (fun k => forallb (fun q => forallb (fun j => byte_at (fst q) j =? wgf (cir k j) (snd q)) (seq 0 8))
  (combine (wp_T k) whirlpool_sbox)) (seq 0 8) = true.
Proof. vm_compute. reflexivity. Qed.
Lemma table_length : forallb (fun k => (length (wp_T k) =? 256)%nat) (seq 0 8) = true.
Proof. reflexivity. Qed.
Lemma table_eq k x j : (k < 8)%nat -> x < 256 -> (j < 8)%nat -> byte_at (nth (N.to_nat x) (wp_T k) 0) j = wgf (cir k j) (S_ x).
Proof.
  intros Hk Hx Hj. pose proof table_check as H. rewrite forallb_forall in H. specialize (H k ltac:(apply in_seq; lia)).
  rewrite forallb_forall in H.
  pose proof table_length as L. rewrite forallb_forall in L. specialize (L k ltac:(apply in_seq; lia)). apply Nat.eqb_eq in L.
  specialize (H (nth (N.to_nat x) (wp_T k) 0, nth (N.to_nat x) whirlpool_sbox 0)).
  assert (I : In (nth (N.to_nat x) (wp_T k) 0, nth (N.to_nat x) whirlpool_sbox 0) (combine (wp_T k) whirlpool_sbox)).
  { rewrite <- combine_nth by (rewrite L, sbox_length; reflexivity). apply nth_In. rewrite combine_length, L, sbox_length. cbn [Nat.min]. lia. }
  specialize (H I). rewrite forallb_forall in H. specialize (H j ltac:(apply in_seq; lia)). now apply N.eqb_eq in H.
Qed.
Lemma t_eq k w j : (k < 8)%nat -> (j < 8)%nat -> byte_at (wp_t (wp_T k) w (56 - 8 * N.of_nat k)) j = wgf (cir k j) (S_ (byte_at w k)).
Proof. intros Hk Hj. unfold wp_t. fold (byte_at w k). apply table_eq; [exact Hk|apply byte_at_bound|exact Hj]. Qed.

Lemma G_eq i ws j : length ws = 8%nat -> (i < 8)%nat -> (j < 8)%nat ->
  byte_at (wp_G i ws) j = sum8 (fun k => wgf (cir k j) (S_ (byte_at (nth ((i + 8 - k) mod 8) ws 0) k))).
Proof.
  intros L Hi Hj. unfold wp_G, sum8. cbv zeta. cbn [seq map fold_left]. rewrite N.lxor_0_l, !byte_at_lxor.
  rewrite <- (t_eq 0), <- (t_eq 1), <- (t_eq 2), <- (t_eq 3), <- (t_eq 4), <- (t_eq 5), <- (t_eq 6), <- (t_eq 7) by lia. reflexivity.
Qed.
Lemma diffusion ws : length ws = 8%nat -> be_string 8 (map (fun i => wp_G i ws) (seq 0 8)) = theta (pi_ (gamma (be_string 8 ws))).
Proof.
  intros L. apply el_ext.
  - now rewrite length_be_string, map_length, seq_length.
  - apply length_matrix.
  - intros i j Hi Hj. rewrite el_string by (rewrite ?map_length, ?seq_length; assumption). rewrite nth_map_seq by exact Hi. cbn [Nat.add].
    rewrite G_eq by assumption. unfold theta. rewrite el_matrix by assumption. unfold sum8. apply f_equal2; [|reflexivity]. apply map_ext_in. intros k Hk. apply in_seq in Hk.
    unfold pi_. rewrite el_matrix by lia. f_equal. assert (M := Nat.mod_upper_bound (i + 8 - k) 8 ltac:(lia)).
    unfold gamma, el. rewrite (nth_map_lt S_ _ _ 0 0) by (rewrite length_be_string, L; lia). f_equal. symmetry. apply el_string; [rewrite L; exact M|lia].
Qed.

Lemma rc_eq : map (fun rc => be_string 8 [rc; 0; 0; 0; 0; 0; 0; 0]) wp_rc = map cr (seq 1 10).
Proof. vm_compute. reflexivity. Qed.
Lemma rc_nth i rc : nth_error wp_rc i = Some rc -> be_string 8 [rc; 0; 0; 0; 0; 0; 0; 0] = cr (S i).
Proof.
  intros H. assert (B : (i < 10)%nat) by (change 10%nat with (length wp_rc); apply nth_error_Some; congruence).
  pose proof rc_eq as E. apply (f_equal (fun l => nth_error l i)) in E. rewrite nth_error_map, H in E. cbn [option_map] in E.
  rewrite nth_error_map, (nth_error_nth' _ 0%nat), seq_nth in E by (rewrite ?seq_length; exact B). cbn [option_map] in E. apply (f_equal (fun o => match o with Some x => x | None => [] end)) in E. exact E.
Qed.
Definition st8 (q : list N * list N) : Prop := length (fst q) = 8%nat /\ length (snd q) = 8%nat.
Lemma round_ok rc q : st8 q -> st8 (wp_round rc q).
Proof. intros [H1 H2]. destruct q as [k x]. unfold wp_round, st8. cbn [fst snd]. rewrite !length_wp_xor, !map_length, !seq_length. split; reflexivity. Qed.
Lemma sigma_comm a b : sigma a b = sigma b a.
Proof.
  unfold sigma. revert b. induction a as [|x a IH]; intros [|y b]; try reflexivity. cbn [combine map fst snd]. rewrite (IH b). f_equal. apply N.lxor_comm.
Qed.
Lemma round_eq i rc k x : length k = 8%nat -> length x = 8%nat -> nth_error wp_rc i = Some rc ->
  let (k', x') := wp_round rc (k, x) in
  be_string 8 k' = rho (cr (S i)) (be_string 8 k) /\ be_string 8 x' = rho (be_string 8 k') (be_string 8 x).
Proof.
  intros Lk Lx Hrc. unfold wp_round. set (k' := wp_xor _ [rc; _; _; _; _; _; _; _]).
  assert (Lk' : length k' = 8%nat) by (unfold k'; rewrite length_wp_xor, map_length, seq_length; reflexivity).
  split.
  - unfold k'. rewrite sigma_string by (rewrite ?map_length, ?seq_length; reflexivity). rewrite (rc_nth i) by exact Hrc.
    rewrite diffusion by exact Lk. unfold rho. apply sigma_comm.
  - rewrite sigma_string by (rewrite ?map_length, ?seq_length; (reflexivity || exact Lk')). rewrite diffusion by exact Lx. apply sigma_comm.
Qed.
Lemma rounds_eq n i k x : length k = 8%nat -> length x = 8%nat -> (i + n <= 10)%nat ->
  exists q, mfor n i (fun i q => let* rc := get wp_rc i in Ok (wp_round rc q)) (k, x) = Ok q /\ st8 q /\
    be_string 8 (snd q) = wrounds n (S i) (be_string 8 k) (be_string 8 x).
Proof.
  revert i k x. induction n as [|n IH]; intros i k x Lk Lx Hn; cbn [mfor wrounds].
  - exists (k, x). repeat split; assumption.
  - rewrite (get_ok _ _ 0) by (change (length wp_rc) with 10%nat; lia). cbn [bind].
    assert (Bi : (i < length wp_rc)%nat) by (change (length wp_rc) with 10%nat; lia).
    pose proof (round_eq i (nth i wp_rc 0) k x Lk Lx (nth_error_nth' wp_rc 0 Bi)) as E.
    destruct (round_ok (nth i wp_rc 0) (k, x) (conj Lk Lx)) as [L1 L2].
    destruct (wp_round (nth i wp_rc 0) (k, x)) as [k' x']. cbn [fst snd] in *. destruct E as [<- <-]. apply IH; [exact L1|exact L2|lia].
Qed.
Definition wcompress (r : N) (h m : list N) : list N := match wp_process r h m with Ok x => x | Err _ => [] end.
Lemma be_string_words m : blk 64 m -> be_string 8 (be_words 8 8 m) = m.
Proof.
  intros [Lm Bm]. apply (nth_ext _ _ 0 0); [now rewrite length_be_string, length_be_words, Lm|].
  intros n Hn. rewrite length_be_string, length_be_words in Hn.
  assert (M := Nat.mod_upper_bound n 8 ltac:(lia)). assert (D : (n / 8 < 8)%nat) by (apply Nat.div_lt_upper_bound; lia).
  transitivity (el (be_string 8 (be_words 8 8 m)) (n / 8) (n mod 8)). { unfold el. now rewrite <- Nat.div_mod by lia. }
  rewrite el_string by (rewrite ?length_be_words; assumption). rewrite nth_be_words by exact D.
  set (s := slice (8 * (n / 8)) 8 m). assert (Ls : length s = 8%nat). { unfold s. apply length_slice. lia. }
  assert (Bs : bytes_ok s) by (now apply bytes_slice).
  transitivity (nth (n mod 8) (be_bytes 8 (be_val s)) 0). { rewrite be_bytes_at, nth_map_seq by lia. reflexivity. }
  pose proof (be_bytes_val s Bs) as Q. rewrite Ls in Q. rewrite Q. unfold s, slice. rewrite nth_firstn, nth_skipn by lia. f_equal. symmetry. apply Nat.div_mod. lia.
Qed.
Lemma process_eq r h m : (N.to_nat r <= 10)%nat -> length h = 8%nat -> blk 64 m ->
  wp_process r h m = Ok (wcompress r h m) /\ length (wcompress r h m) = 8%nat /\
  be_string 8 (wcompress r h m) = whirlpool_compress (N.to_nat r) (be_string 8 h) m.
Proof.
  intros Hr Lh Hm. unfold wcompress, wp_process.
  assert (E0 : map (fun i => load64b m (8 * i)) (seq 0 8) = be_words 8 8 m).
  { destruct Hm as [Lm Bm]. transitivity (map (fun i => nth i (be_words 8 8 m) 0) (seq 0 8)); [|apply map_nth_seq; symmetry; apply length_be_words].
    apply map_ext_in. intros i Hi. apply in_seq in Hi. apply nth_load64b; [exact Bm|lia|lia]. }
  rewrite E0. assert (Li := length_be_words 8 8 m).
  destruct (rounds_eq (N.to_nat r) 0 h (wp_xor (be_words 8 8 m) h)) as (q & E & [L1 L2] & S); [exact Lh|rewrite length_wp_xor, Li, Lh; reflexivity|exact Hr|].
  rewrite E. cbn [bind]. split; [reflexivity|]. split; [rewrite !length_wp_xor, Lh, Li, L2; reflexivity|].
  rewrite !sigma_string, S by (rewrite ?length_wp_xor, ?L2, ?Li, ?Lh; reflexivity). rewrite sigma_string by assumption. rewrite be_string_words by exact Hm.
  unfold whirlpool_compress, W_. rewrite (sigma_comm m). set (x := wrounds _ _ _ _).
  unfold sigma. clearbody x. clear. generalize (be_string 8 h) as y. revert m. induction x as [|a x IH]; intros [|b m] [|c y]; try reflexivity.
  cbn [combine map fst snd]. f_equal; [|apply IH]. now rewrite <- N.lxor_assoc, (N.lxor_comm c a).
Qed.

Lemma iterate_ser bs c c' (hok : list N -> Prop) (ser : list N -> list N) h l : (0 < bs)%nat ->
  (forall h b, hok h -> blk bs b -> ser (c h b) = c' (ser h) b /\ hok (c h b)) -> hok h -> bytes_ok l ->
  ser (iterate bs c h l) = iterate bs c' (ser h) l.
Proof.
  intros Hbs Hc Hh Hl. unfold iterate. assert (B : Forall (blk bs) (blocks bs l)).
  { apply Forall_forall. intros b Hb. unfold blocks in Hb. apply in_map_iff in Hb. destruct Hb as (i & <- & Hi). apply in_seq in Hi.
    unfold block. split; [|now apply bytes_slice]. apply length_slice.
    assert (A := Nat.mul_div_le (length l) bs ltac:(lia)). nia. }
  revert h Hh. induction B as [|b t Hb Ht IH]; intros h Hh; [reflexivity|]. cbn [fold_left]. destruct (Hc h b Hh Hb) as [<- H2]. now apply IH.
Qed.
Definition rounds_w (r : N) : nat := if r =? 0 then 10%nat else N.to_nat r.
Lemma whirlpool_computes r n : r < 10 -> (n <= 64)%nat -> computes hash_whirlpool r [] n 64 (fun len => N.of_nat len < 2 ^ 253) (whirlpool (rounds_w r)).
Proof.
  intros Hr Hn. set (r' := if r =? 0 then 10 else r).
  assert (Hr' : (N.to_nat r' <= 10)%nat) by (unfold r'; destruct (N.eqb_spec r 0); lia).
  assert (Er : rounds_w r = N.to_nat r') by (unfold rounds_w, r'; destruct (r =? 0); reflexivity).
  intros parts Hp Hl.
  assert (C : computes hash_whirlpool r [] n 64 (fun len => 8 * N.of_nat len < top 4)
    (fun m => be_string 8 (iterate 64 (wcompress r') (repeat 0 8) (md_pad 64 32 0x80 be_bytes m)))).
  { apply (rmd_computes whirlpool_md whirlpool_start 32 4 be_bytes (wcompress r') (fun h => length h = 8%nat) (be_string 8) (repeat 0 8) r r'); try md_side; try exact Hn.
    - intros x. apply blk_be_bytes.
    - intros l Ll Wl. cbn [mp_len whirlpool_md]. rewrite len_be by exact Wl. now rewrite Ll.
    - intros h b Hh Hb. destruct (process_eq r' h b Hr' Hh Hb) as (E & L & _). now split.
    - intros h i k Hh Hk. cbn [mp_out whirlpool_md]. rewrite store64b_array_eq, stores64b_be; [reflexivity|]. rewrite Hh. exact Hk.
    - intros b. unfold whirlpool_start. rewrite (proj2 (N.ltb_lt r 10) Hr). reflexivity. }
  specialize (C parts Hp (len_bits 4 (2 ^ 253) _ eq_refl Hl)). cbv beta in C.
  replace (whirlpool (rounds_w r) (concat parts)) with (be_string 8 (iterate 64 (wcompress r') (repeat 0 8) (md_pad 64 32 0x80 be_bytes (concat parts)))); [exact C|].
  unfold whirlpool. rewrite Er. change (repeat 0 64) with (be_string 8 (repeat 0 8)).
  apply (iterate_ser 64 _ _ (fun h => length h = 8%nat)); [lia| |reflexivity|].
  - intros h b Hh Hb. destruct (process_eq r' h b Hr' Hh Hb) as (_ & L & S). now split.
  - unfold md_pad. apply Forall_app. split; [now apply Forall_concat|]. constructor; [reflexivity|]. apply Forall_app. split.
    + apply Forall_forall. intros x Hx. apply repeat_spec in Hx. now subst.
    + apply bytes_be_bytes.
Qed.
