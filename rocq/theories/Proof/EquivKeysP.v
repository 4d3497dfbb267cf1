From Coq Require Import NArith Arith List Bool Lia.
From Verif Require Import Lib.Word Lib.Res Lib.Bytes Lib.Bij Lib.Bits Lib.BitsP Lib.Lists Lib.WordSpec Lib.WordsP Lib.BlockLemmas Lib.MemLemmas
  Spec.Words Spec.Block Spec.Cipher Spec.Modes Spec.Arx Spec.DesPub Spec.EquivKeys Model.BlockApi Model.Ciphers Model.Des Proof.ModesBP Proof.DesPubP.
Import ListNotations.
Local Open Scope N_scope.

(** ** Complements of strings of bits *)
Definition cpl (b : list bool) : list bool := map negb b.
Lemma length_cpl b : length (cpl b) = length b. Proof. apply map_length. Qed.
Lemma nth_cpl b i : (i < length b)%nat -> nth i (cpl b) false = negb (nth i b false).
Proof. intros H. unfold cpl. now rewrite (nth_map_any negb b i false false). Qed.
Lemma select_cpl t b n : length b = n -> forallb (fun i => (i - 1 <? n)%nat) t = true -> select t (cpl b) = cpl (select t b).
Proof.
  intros L H. rewrite forallb_forall in H. unfold select, cpl. rewrite map_map. apply map_ext_in. intros i Hi.
  apply (nth_cpl b). rewrite L. apply Nat.ltb_lt, H, Hi.
Qed.
Lemma xor_cpl2 a : forall b, xor_bits (cpl a) (cpl b) = xor_bits a b.
Proof. unfold xor_bits, cpl. induction a as [|x a IH]; intros [|y b]; try reflexivity. cbn [map combine fst snd]. rewrite IH. now destruct x, y. Qed.
Lemma xor_cpl1 a : forall b, xor_bits (cpl a) b = cpl (xor_bits a b).
Proof. unfold xor_bits, cpl. induction a as [|x a IH]; intros [|y b]; try reflexivity. cbn [map combine fst snd]. rewrite IH. now destruct x, y. Qed.
Lemma cpl_app a b : cpl (a ++ b) = cpl a ++ cpl b. Proof. apply map_app. Qed.
Lemma slice_cpl o n b : slice o n (cpl b) = cpl (slice o n b). Proof. apply slice_map. Qed.
Lemma left_shift_cpl n b : left_shift n (cpl b) = cpl (left_shift n b).
Proof. unfold left_shift, cpl. now rewrite skipn_map, firstn_map, map_app. Qed.
Lemma length_left_shift n b : length (left_shift n b) = length b.
Proof. unfold left_shift. rewrite app_length, skipn_length, firstn_length. lia. Qed.
Lemma xor_cancel a b : (length a <= length b)%nat -> xor_bits (xor_bits a b) b = a.
Proof.
  unfold xor_bits. revert b. induction a as [|x a IH]; intros [|y b] H; try reflexivity; cbn [length] in H; [lia|].
  cbn [map combine fst snd]. rewrite IH by lia. now destruct x, y.
Qed.
Lemma cpl_byte x : inw 8 x -> to_bits 8 (N.lxor x 255) = cpl (to_bits 8 x).
Proof.
  intros Hx. apply bits_ext; [now rewrite length_cpl, !length_to_bits|]. intros i Hi. rewrite length_to_bits in Hi.
  rewrite nth_cpl by now rewrite length_to_bits. rewrite !nth_to_bits by exact Hi. rewrite N.lxor_spec.
  change 255 with (N.ones 8). rewrite N.ones_spec_low by lia. now destruct (N.testbit x (N.of_nat (8 - 1 - i))).
Qed.
Definition flip_all (l : list N) : list N := map (fun x => N.lxor x 255) l.
Lemma flip_bytes l : bytes_ok l -> bytes_ok (flip_all l).
Proof. intros H. unfold flip_all, bytes_ok in *. apply Forall_forall. intros y Hy. apply in_map_iff in Hy. destruct Hy as (x & <- & Hx). rewrite Forall_forall in H. apply (inw_lxor 8); [now apply H|reflexivity]. Qed.
Lemma string_cpl l : bytes_ok l -> string_bits (flip_all l) = cpl (string_bits l).
Proof.
  unfold string_bits, flip_all. induction l as [|x l IH]; intros H; [reflexivity|]. cbn [map flat_map]. rewrite cpl_app, IH by (inversion H; assumption).
  f_equal. apply cpl_byte. now inversion H.
Qed.
Lemma bits_string_cpl n b : length b = (8 * n)%nat -> bits_string n (cpl b) = flip_all (bits_string n b).
Proof.
  intros L. unfold bits_string, flip_all. rewrite map_map. apply map_ext_in. intros i Hi. apply in_seq in Hi. rewrite slice_cpl.
  set (c := slice (8 * i) 8 b). assert (Lc : length c = 8%nat) by (unfold c, slice; rewrite firstn_length, skipn_length; lia). clearbody c.
  pose proof (to_of_bits c 8 Lc) as E. assert (B : inw 8 (of_bits c)) by (apply of_bits_inw; rewrite Lc; apply N.le_refl).
  rewrite <- E at 1. rewrite <- cpl_byte by exact B. apply (of_to_bits 8). apply inw_lxor; [exact B|reflexivity].
Qed.

(** ** DES: complement *)
Lemma length_fips_f R K : length (fips_f R K) = 32%nat. Proof. unfold fips_f. cbv zeta. now rewrite length_select. Qed.
Lemma length_K key n : length (fips_K key n) = 48%nat. Proof. unfold fips_K. cbv zeta. now rewrite length_select. Qed.
Lemma CD_len key n : length (fst (fips_CD key n)) = 28%nat /\ length (snd (fips_CD key n)) = 28%nat.
Proof.
  unfold fips_CD.
  assert (G : forall l cd, length (fst cd) = 28%nat /\ length (snd cd) = 28%nat ->
    let cd' := fold_left (fun cd s => (left_shift s (fst cd), left_shift s (snd cd))) l cd in length (fst cd') = 28%nat /\ length (snd cd') = 28%nat).
  { induction l as [|s l IH]; intros cd H; [exact H|]. cbn [fold_left]. apply IH. cbn [fst snd]. now rewrite !length_left_shift. }
  apply G. cbn [fst snd]. unfold slice. rewrite !firstn_length, !skipn_length, !length_select. split; reflexivity.
Qed.
Lemma CD_cpl key n : length key = 64%nat -> fips_CD (cpl key) n = (cpl (fst (fips_CD key n)), cpl (snd (fips_CD key n))).
Proof.
  intros L. unfold fips_CD. rewrite (select_cpl fips_PC1 key 64 L eq_refl). rewrite !slice_cpl.
  generalize (slice 0 28 (select fips_PC1 key)) as c, (slice 28 28 (select fips_PC1 key)) as d. generalize (firstn (S n) fips_shifts) as l.
  induction l as [|s l IH]; intros c d; [reflexivity|]. cbn [fold_left fst snd]. rewrite !left_shift_cpl. apply IH.
Qed.
Lemma K_cpl key n : length key = 64%nat -> fips_K (cpl key) n = cpl (fips_K key n).
Proof.
  intros L. unfold fips_K. cbv zeta. rewrite CD_cpl by exact L. cbn [fst snd]. rewrite <- cpl_app. apply (select_cpl _ _ 56); [|exact eq_refl].
  destruct (CD_len key n) as [A B]. rewrite app_length. now rewrite A, B.
Qed.
Lemma f_cpl R K : length R = 32%nat -> fips_f (cpl R) (cpl K) = fips_f R K.
Proof. intros L. unfold fips_f. cbv zeta. rewrite (select_cpl fips_E R 32 L eq_refl), xor_cpl2. reflexivity. Qed.

(** the rounds over a list of round keys *)
Definition fstep (lr : list bool * list bool) (K : list bool) : list bool * list bool := (snd lr, xor_bits (fst lr) (fips_f (snd lr) K)).
Definition half2 (lr : list bool * list bool) : Prop := length (fst lr) = 32%nat /\ length (snd lr) = 32%nat.
Lemma fstep_half lr K : half2 lr -> half2 (fstep lr K).
Proof. intros [A B]. unfold fstep, half2. cbn [fst snd]. rewrite length_xor_bits, length_fips_f, A. now split. Qed.
Lemma fsteps_half Ks : forall lr, half2 lr -> half2 (fold_left fstep Ks lr).
Proof. induction Ks as [|K Ks IH]; intros lr H; [exact H|]. apply IH, fstep_half, H. Qed.
Lemma fold_map_l {A B C} (f : A -> B -> A) (g : C -> B) l : forall a, fold_left f (map g l) a = fold_left (fun a c => f a (g c)) l a.
Proof. induction l as [|x l IH]; intros a; [reflexivity|apply IH]. Qed.
Definition feistel (Ks : list (list bool)) (block : list bool) : list bool :=
  let ip := select fips_IP block in
  let lr := fold_left fstep Ks (slice 0 32 ip, slice 32 32 ip) in select fips_IP_inverse (snd lr ++ fst lr).
Lemma rounds_feistel key order b : fips_rounds key order b = feistel (map (fips_K key) order) b.
Proof. unfold fips_rounds, feistel. cbv zeta. rewrite fold_map_l. reflexivity. Qed.
Lemma start_half (block : list bool) : half2 (slice 0 32 (select fips_IP block), slice 32 32 (select fips_IP block)).
Proof. unfold half2. cbn [fst snd]. unfold slice. rewrite !firstn_length, !skipn_length, length_select. split; reflexivity. Qed.
Lemma length_feistel Ks b : length (feistel Ks b) = 64%nat. Proof. unfold feistel. cbv zeta. now rewrite length_select. Qed.
Definition cpl2 (lr : list bool * list bool) := (cpl (fst lr), cpl (snd lr)).
Lemma fsteps_cpl Ks : forall lr, half2 lr -> fold_left fstep (map cpl Ks) (cpl2 lr) = cpl2 (fold_left fstep Ks lr).
Proof.
  induction Ks as [|K Ks IH]; intros lr H; [reflexivity|]. cbn [map fold_left].
  rewrite <- IH by now apply fstep_half. f_equal. unfold fstep, cpl2. cbn [fst snd]. rewrite (f_cpl _ _ (proj2 H)), xor_cpl1. reflexivity.
Qed.
Lemma feistel_cpl Ks b : length b = 64%nat -> feistel (map cpl Ks) (cpl b) = cpl (feistel Ks b).
Proof.
  intros L. unfold feistel. cbv zeta. rewrite (select_cpl fips_IP b 64 L eq_refl), !slice_cpl.
  pose proof (start_half b) as H. pose proof (fsteps_cpl Ks _ H) as E. unfold cpl2 at 1 in E. cbn [fst snd] in E. rewrite E. unfold cpl2. cbn [fst snd].
  rewrite <- cpl_app. apply (select_cpl _ _ 64); [|exact eq_refl]. pose proof (fsteps_half Ks _ H) as [A B]. rewrite app_length. now rewrite A, B.
Qed.
Lemma rounds_cpl key order b : bytes_ok key -> length key = 8%nat -> length b = 64%nat ->
  fips_rounds (string_bits (flip_all key)) order (cpl b) = cpl (fips_rounds (string_bits key) order b).
Proof.
  intros Hk L Lb. rewrite !rounds_feistel, <- feistel_cpl by exact Lb. f_equal. rewrite map_map. apply map_ext. intros n.
  rewrite string_cpl by exact Hk. apply K_cpl. now rewrite length_string_bits, L.
Qed.
Lemma length_rounds key order b : length (fips_rounds key order b) = 64%nat. Proof. rewrite rounds_feistel. apply length_feistel. Qed.

(** ** Inverse *)
Lemma select_seq (b : list bool) : select (seq 1 (length b)) b = b.
Proof.
  unfold select. apply bits_ext; [now rewrite map_length, seq_length|]. intros i Hi. rewrite map_length, seq_length in Hi.
  rewrite nth_map_seq by exact Hi. f_equal. lia.
Qed.
Lemma select_select t u (b : list bool) : forallb (fun i => (i - 1 <? length u)%nat) t = true -> select t (select u b) = select (map (fun i => nth (i - 1) u 0%nat) t) b.
Proof.
  intros H. rewrite forallb_forall in H. unfold select. rewrite map_map. apply map_ext_in. intros i Hi. apply H, Nat.ltb_lt in Hi.
  now rewrite (nth_map_any (fun j => nth (j - 1) b false) u _ false 0%nat).
Qed.
Lemma IP_inverse_l (b : list bool) : length b = 64%nat -> select fips_IP_inverse (select fips_IP b) = b.
Proof. intros L. rewrite select_select by exact eq_refl. rewrite <- (select_seq b) at 2. rewrite L. f_equal. Qed.
Lemma IP_inverse_r (b : list bool) : length b = 64%nat -> select fips_IP (select fips_IP_inverse b) = b.
Proof. intros L. rewrite select_select by exact eq_refl. rewrite <- (select_seq b) at 2. rewrite L. f_equal. Qed.
Definition swp (lr : list bool * list bool) := (snd lr, fst lr).
Lemma fstep_undo lr K : half2 lr -> fstep (swp (fstep lr K)) K = swp lr.
Proof.
  intros [A B]. destruct lr as [l r]. unfold fstep, swp. cbn [fst snd] in *. rewrite xor_cancel; [reflexivity|]. rewrite length_fips_f, A. lia.
Qed.
Lemma fsteps_undo Ks : forall lr, half2 lr -> fold_left fstep (rev Ks) (swp (fold_left fstep Ks lr)) = swp lr.
Proof.
  induction Ks as [|K Ks IH]; intros lr H; [reflexivity|]. cbn [rev fold_left]. rewrite fold_left_app. cbn [fold_left].
  rewrite IH by now apply fstep_half. now apply fstep_undo.
Qed.
Lemma half_app (a b : list bool) : length a = 32%nat -> length b = 32%nat -> slice 0 32 (a ++ b) = a /\ slice 32 32 (a ++ b) = b.
Proof.
  intros A B. unfold slice. split.
  - rewrite skipn_O. rewrite <- A. rewrite firstn_app, Nat.sub_diag, firstn_O, firstn_all. apply app_nil_r.
  - rewrite skipn_app, A, Nat.sub_diag, skipn_O, skipn_all2 by lia. rewrite app_nil_l. apply firstn_all2. lia.
Qed.
Lemma feistel_undo Ks b : length b = 64%nat -> feistel (rev Ks) (feistel Ks b) = b.
Proof.
  intros L. unfold feistel at 1 2. cbv zeta. set (ip := select fips_IP b). pose proof (start_half b) as H. fold ip in H.
  pose proof (fsteps_half Ks _ H) as G. pose proof (fsteps_undo Ks _ H) as U.
  assert (Lip : length ip = 64%nat) by (unfold ip; apply length_select).
  set (lr := fold_left fstep Ks (slice 0 32 ip, slice 32 32 ip)) in *. clearbody lr. destruct G as [A B].
  rewrite IP_inverse_r by (rewrite app_length; now rewrite A, B).
  destruct (half_app _ _ B A) as [E F]. rewrite E, F. unfold swp in U. rewrite U. cbn [fst snd]. rewrite slice_halves by exact Lip.
  unfold ip. now apply IP_inverse_l.
Qed.
Lemma dec_enc key b : length b = 64%nat -> fips_decrypt key (fips_encrypt key b) = b.
Proof. intros L. unfold fips_decrypt, fips_encrypt. rewrite !rounds_feistel, map_rev. now apply feistel_undo. Qed.
Lemma enc_dec key b : length b = 64%nat -> fips_encrypt key (fips_decrypt key b) = b.
Proof.
  intros L. unfold fips_decrypt, fips_encrypt. rewrite !rounds_feistel. rewrite <- (rev_involutive (seq 0 16)) at 1. rewrite (map_rev _ (rev (seq 0 16))). now apply feistel_undo.
Qed.
Lemma keys_undo k k' b : map (fips_K (string_bits k')) (seq 0 16) = rev (map (fips_K (string_bits k)) (seq 0 16)) -> length b = 64%nat ->
  fips_encrypt k' (fips_encrypt k b) = b.
Proof. intros E L. unfold fips_encrypt. rewrite !rounds_feistel, E. now apply feistel_undo. Qed.

(** ** The objects *)
Lemma string_blk pt : blk 8 pt -> bits_string 8 (string_bits pt) = pt.
Proof.
  intros [L B]. unfold bits_string. apply nth_ext with (d := 0) (d' := 0); [now rewrite map_length, seq_length|].
  intros i Hi. rewrite map_length, seq_length in Hi. rewrite nth_map_seq by exact Hi. cbn [Nat.add].
  assert (S : slice (8 * i) 8 (string_bits pt) = to_bits 8 (nth i pt 0)).
  { apply bits_ext.
    - unfold slice. rewrite firstn_length, skipn_length, length_string_bits, length_to_bits. lia.
    - intros k Hk. assert (Hk8 : (k < 8)%nat) by (unfold slice in Hk; rewrite firstn_length in Hk; lia).
      rewrite nth_slice_gen, nth_string_bits, nth_to_bits by exact Hk8. replace (8 * i + k)%nat with (k + i * 8)%nat by lia.
      rewrite Nat.div_add, Nat.mod_add by lia. rewrite Nat.div_small, Nat.mod_small by exact Hk8. f_equal. }
  rewrite S. apply (of_to_bits 8). change (N.of_nat 8) with 8. now apply words_nth.
Qed.
Lemma bits_blk b : length b = 64%nat -> blk 8 (bits_string 8 b) /\ string_bits (bits_string 8 b) = b.
Proof.
  intros L.
  assert (P : forall i, (i < 8)%nat -> length (slice (8 * i) 8 b) = 8%nat) by (intros i Hi; unfold slice; rewrite firstn_length, skipn_length; lia).
  assert (B : blk 8 (bits_string 8 b)).
  { split; [unfold bits_string; now rewrite map_length, seq_length|]. unfold bits_string, bytes_ok. apply Forall_forall. intros x Hx.
    apply in_map_iff in Hx. destruct Hx as (i & <- & Hi). apply in_seq in Hi. apply (of_bits_inw _ 8). rewrite P by lia. apply N.le_refl. }
  split; [exact B|]. apply bits_ext; [rewrite length_string_bits, (proj1 B); now rewrite L|].
  intros i Hi. rewrite length_string_bits, (proj1 B) in Hi. rewrite nth_string_bits. unfold bits_string.
  pose proof (Nat.div_mod i 8 ltac:(discriminate)) as D. pose proof (Nat.mod_upper_bound i 8 ltac:(discriminate)) as M.
  assert (Q : (i / 8 < 8)%nat) by (apply Nat.div_lt_upper_bound; lia).
  rewrite nth_map_seq by exact Q. cbn [Nat.add]. rewrite of_bits_spec, P by exact Q.
  replace (7 - i mod 8 <? 8)%nat with true by (symmetry; apply Nat.ltb_lt; lia). rewrite nth_slice_gen by lia. f_equal. lia.
Qed.
Definition des_bits (key : list N) (b : list bool) : list bool :=
  let k i := slice (8 * i) 8 (zero_pad 24 key) in
  if (length key <=? 8)%nat then fips_encrypt (k 0%nat) b
  else fips_encrypt (k (if (length key <=? 16)%nat then 0 else 2)%nat) (fips_decrypt (k 1%nat) (fips_encrypt (k 0%nat) b)).
Lemma des_cipher_bits key pt : des_cipher key pt = bits_string 8 (des_bits key (string_bits pt)).
Proof. reflexivity. Qed.
Lemma length_enc key b : length (fips_encrypt key b) = 64%nat. Proof. unfold fips_encrypt. exact (length_rounds _ _ _). Qed.
Lemma length_des_bits key b : length (des_bits key b) = 64%nat.
Proof. unfold des_bits. cbv zeta. destruct (length key <=? 8)%nat; apply length_enc. Qed.
Lemma blk_des key pt : blk 8 (des_cipher key pt).
Proof. rewrite des_cipher_bits. apply bits_blk, length_des_bits. Qed.
Lemma length_sb pt : blk 8 pt -> length (string_bits pt) = 64%nat.
Proof. intros [L _]. now rewrite length_string_bits, L. Qed.

Section Cipher.
  Context (c : bcipher) (ok : list N -> Prop) (E : list N -> list N -> list N).
  Hypothesis HE : is_cipher c ok E.
  Hypothesis HB : forall k b, blk (bc_bs c) b -> blk (bc_bs c) (E k b).
  Lemma same_of k k' : bytes_ok k -> bytes_ok k' -> ok k -> ok k' -> (forall b, blk (bc_bs c) b -> E k' b = E k b) -> same_cipher c 0 k k'.
  Proof.
    intros B B' O O' H. destruct (HE k B O) as (s & Cs & Gs), (HE k' B' O') as (s' & Cs' & Gs'). exists s, s'. split; [exact Cs|]. split; [exact Cs'|].
    intros b Hb. exists (E k b). destruct (Gs b Hb) as [G1 G2], (Gs' b Hb) as [G3 G4]. rewrite H in G3, G4 by exact Hb. split; [now apply HB|]. repeat split; assumption.
  Qed.
  Lemma undone_of k k' : bytes_ok k -> bytes_ok k' -> ok k -> ok k' -> (forall b, blk (bc_bs c) b -> E k' (E k b) = b) -> undone_by c k k'.
  Proof.
    intros B B' O O' H. destruct (HE k B O) as (s & Cs & Gs), (HE k' B' O') as (s' & Cs' & Gs'). exists s, s'. split; [exact Cs|]. split; [exact Cs'|].
    intros b Hb. exists (E k b). split; [now apply HB|]. split; [apply Gs, Hb|]. rewrite <- (H b Hb) at 2. apply Gs'. now apply HB.
  Qed.
  Lemma flips_of m k k' : bytes_ok k -> bytes_ok k' -> ok k -> ok k' -> blk (bc_bs c) m ->
    (forall b, blk (bc_bs c) b -> E k' (xor_bytes b m) = xor_bytes (E k b) m) -> flips c m k k'.
  Proof.
    intros B B' O O' Bm H. destruct (HE k B O) as (s & Cs & Gs), (HE k' B' O') as (s' & Cs' & Gs'). exists s, s'. split; [exact Cs|]. split; [exact Cs'|].
    intros b Hb. exists (E k b). split; [now apply HB|]. split; [apply Gs, Hb|]. rewrite <- (H b Hb). apply Gs'. now apply blk_xor.
  Qed.
End Cipher.

Lemma xor_flip b n : length b = n -> xor_bytes b (repeat 255 n) = flip_all b.
Proof. intros <-. unfold flip_all. induction b as [|x b IH]; [reflexivity|]. cbn [length repeat xor_bytes map]. now rewrite IH. Qed.
Lemma slice_in {A} (l r : list A) o n : (o + n <= length l)%nat -> slice o n (l ++ r) = slice o n l.
Proof.
  intros H. unfold slice. rewrite skipn_app. rewrite firstn_app, skipn_length. replace (n - (length l - o))%nat with 0%nat by lia.
  rewrite firstn_O. apply app_nil_r.
Qed.
Lemma part_flip key i : (8 * i + 8 <= length key)%nat ->
  slice (8 * i) 8 (zero_pad 24 (flip_all key)) = flip_all (slice (8 * i) 8 (zero_pad 24 key)).
Proof.
  intros H. unfold zero_pad. rewrite !slice_in; [apply slice_map|exact H|]. unfold flip_all. now rewrite map_length.
Qed.
Lemma part_len key i : (length key <= 24)%nat -> (8 * i + 8 <= 24)%nat -> length (slice (8 * i) 8 (zero_pad 24 key)) = 8%nat.
Proof. intros L H. unfold slice. rewrite firstn_length, skipn_length, length_zero_pad by exact L. lia. Qed.
Lemma part_bytes key i : bytes_ok key -> bytes_ok (slice (8 * i) 8 (zero_pad 24 key)).
Proof. intros H. apply bytes_slice. now apply bytes_zero_pad. Qed.
Lemma des_flip key b : bytes_ok key -> In (length key) [8; 16; 24]%nat -> length b = 64%nat -> des_bits (flip_all key) (cpl b) = cpl (des_bits key b).
Proof.
  intros B L Lb. unfold des_bits. cbv zeta. assert (Lf : length (flip_all key) = length key) by (unfold flip_all; apply map_length). rewrite Lf.
  assert (H : forall i, (8 * i + 8 <= length key)%nat -> bytes_ok (slice (8 * i) 8 (zero_pad 24 key)) /\ length (slice (8 * i) 8 (zero_pad 24 key)) = 8%nat /\
      slice (8 * i) 8 (zero_pad 24 (flip_all key)) = flip_all (slice (8 * i) 8 (zero_pad 24 key))).
  { intros i Hi. assert (length key <= 24)%nat by (cbn [In] in L; lia). split; [now apply part_bytes|]. split; [apply part_len; lia|now apply part_flip]. }
  assert (Ef : forall i order x, (8 * i + 8 <= length key)%nat -> length x = 64%nat ->
    fips_rounds (string_bits (slice (8 * i) 8 (zero_pad 24 (flip_all key)))) order (cpl x) = cpl (fips_rounds (string_bits (slice (8 * i) 8 (zero_pad 24 key))) order x)).
  { intros i order x Hi Lx. destruct (H i Hi) as (A & C & ->). now apply rounds_cpl. }
  unfold fips_encrypt, fips_decrypt.
  destruct L as [L|[L|[L|[]]]]; rewrite <- L in Ef |- *; cbn [Nat.leb].
  - apply Ef; [lia|exact Lb].
  - rewrite !Ef; [reflexivity|..]; try lia; try exact Lb; apply length_rounds.
  - rewrite !Ef; [reflexivity|..]; try lia; try exact Lb; apply length_rounds.
Qed.
Lemma des_up_to key n : In (length key) [8; 16; 24]%nat -> (24 <= n)%nat -> up_to n key.
Proof. unfold up_to. cbn [In]. lia. Qed.
Lemma des_blk k b : blk (bc_bs des_desc) b -> blk (bc_bs des_desc) (des_cipher k b).
Proof. intros _. exact (blk_des k b). Qed.
Lemma des_complement key : bytes_ok key -> In (length key) [8; 16; 24]%nat -> flips des_desc (repeat 255 8) key (map (fun x => N.lxor x 255) key).
Proof.
  intros B L. apply (flips_of des_desc (up_to 24) des_cipher des_published des_blk).
  - exact B.
  - exact (flip_bytes key B).
  - now apply des_up_to.
  - apply des_up_to; [now rewrite map_length|lia].
  - split; [reflexivity|repeat constructor].
  - intros b Hb. change (blk 8 b) in Hb. rewrite (xor_flip b 8 (proj1 Hb)), (xor_flip _ 8 (proj1 (blk_des key b))). fold (flip_all key).
    rewrite !des_cipher_bits, string_cpl by apply Hb. rewrite des_flip by (assumption || now apply length_sb). apply bits_string_cpl, length_des_bits.
Qed.

(** ** DES: parity bits, keys of triple DES that are DES keys *)
Lemma half_bit x y m : x / 2 = y / 2 -> N.testbit x (N.succ m) = N.testbit y (N.succ m).
Proof. intros H. rewrite <- !N.div2_bits. now rewrite H. Qed.
Lemma PC1_no_parity : forallb (fun i => negb ((i - 1) mod 8 =? 7)%nat) fips_PC1 = true. Proof. vm_compute. reflexivity. Qed.
Lemma PC1_parity k k' : same_but_parity k k' -> select fips_PC1 (string_bits k) = select fips_PC1 (string_bits k').
Proof.
  intros H. unfold select. apply map_ext_in. intros i Hi. pose proof PC1_no_parity as P. rewrite forallb_forall in P. apply P in Hi. apply negb_true_iff, Nat.eqb_neq in Hi.
  rewrite !nth_string_bits. set (j := (i - 1)%nat) in *. pose proof (Nat.mod_upper_bound j 8 ltac:(discriminate)).
  replace (N.of_nat (7 - j mod 8)) with (N.succ (N.of_nat (6 - j mod 8))) by lia. apply half_bit.
  assert (E : nth (j / 8) (map (fun x => x / 2) k) 0 = nth (j / 8) (map (fun x => x / 2) k') 0) by now rewrite H.
  rewrite !(map_nth (fun x => x / 2) _ 0) in E. exact E.
Qed.
Lemma K_parity k k' n : same_but_parity k k' -> fips_K (string_bits k) n = fips_K (string_bits k') n.
Proof. intros H. unfold fips_K, fips_CD. now rewrite (PC1_parity k k' H). Qed.
Lemma rounds_parity k k' order b : same_but_parity k k' -> fips_rounds (string_bits k) order b = fips_rounds (string_bits k') order b.
Proof. intros H. rewrite !rounds_feistel. f_equal. apply map_ext. intros n. now apply K_parity. Qed.
Lemma parity_length k k' : same_but_parity k k' -> length k = length k'.
Proof. intros H. rewrite <- (map_length (fun x => x / 2) k), <- (map_length (fun x => x / 2) k'). now rewrite H. Qed.
Lemma parity_part k k' i : same_but_parity k k' -> same_but_parity (slice (8 * i) 8 (zero_pad 24 k)) (slice (8 * i) 8 (zero_pad 24 k')).
Proof.
  intros H. unfold same_but_parity. rewrite <- !slice_map. f_equal. unfold zero_pad. rewrite !map_app, (parity_length _ _ H). f_equal. exact H.
Qed.
Lemma des_parity k k' : bytes_ok k -> bytes_ok k' -> up_to 24 k -> same_but_parity k k' -> same_cipher des_desc 0 k k'.
Proof.
  intros B B' L H. pose proof (parity_length _ _ H) as E. apply (same_of des_desc (up_to 24) des_cipher des_published des_blk); try assumption.
  - unfold up_to in *. now rewrite <- E.
  - intros b _. rewrite !des_cipher_bits. f_equal. unfold des_bits. cbv zeta. rewrite <- E. unfold fips_encrypt, fips_decrypt.
    destruct (length k <=? 8)%nat; [symmetry; now apply rounds_parity, parity_part|].
    rewrite <- !(rounds_parity _ _ _ _ (parity_part k k' _ H)). reflexivity.
Qed.
Lemma part_at (a b c : list N) : length a = 8%nat -> length b = 8%nat -> length c = 8%nat ->
  let k i := slice (8 * i) 8 (a ++ b ++ c) in k 0%nat = a /\ k 1%nat = b /\ k 2%nat = c.
Proof.
  intros A B C k. unfold k, slice.
  do 9 (destruct a as [|? a]; try discriminate A). do 9 (destruct b as [|? b]; try discriminate B). do 9 (destruct c as [|? c]; try discriminate C).
  repeat split; reflexivity.
Qed.
Lemma des_one a pt : length a = 8%nat -> des_cipher a pt = bits_string 8 (fips_encrypt a (string_bits pt)).
Proof.
  intros A. unfold des_cipher, zero_pad. cbv zeta. rewrite A. cbn [Nat.leb Nat.sub].
  replace (slice (8 * 0) 8 (a ++ repeat 0 16)) with a; [reflexivity|]. symmetry.
  change (repeat 0 16) with (repeat 0 8 ++ repeat 0 8). now apply (part_at a (repeat 0 8) (repeat 0 8)).
Qed.
Lemma des_two a b pt : length a = 8%nat -> length b = 8%nat ->
  des_cipher (a ++ b) pt = bits_string 8 (fips_encrypt a (fips_decrypt b (fips_encrypt a (string_bits pt)))).
Proof.
  intros A B. unfold des_cipher, zero_pad. cbv zeta. rewrite app_length, A, B. cbn [Nat.leb Nat.sub Nat.add]. rewrite <- app_assoc.
  destruct (part_at a b (repeat 0 8) A B eq_refl) as (P0 & P1 & _). now rewrite P0, P1.
Qed.
Lemma des_three a b c pt : length a = 8%nat -> length b = 8%nat -> length c = 8%nat ->
  des_cipher (a ++ b ++ c) pt = bits_string 8 (fips_encrypt c (fips_decrypt b (fips_encrypt a (string_bits pt)))).
Proof.
  intros A B C. unfold des_cipher, zero_pad. cbv zeta. rewrite !app_length, A, B, C. cbn [Nat.leb Nat.sub Nat.add repeat]. rewrite app_nil_r.
  destruct (part_at a b c A B C) as (P0 & P1 & P2). now rewrite P0, P1, P2.
Qed.
Lemma des_same k k' : bytes_ok k -> bytes_ok k' -> up_to 24 k -> up_to 24 k' -> (forall b, blk 8 b -> des_cipher k' b = des_cipher k b) -> same_cipher des_desc 0 k k'.
Proof. intros B B' L L' H. exact (same_of des_desc (up_to 24) des_cipher des_published des_blk k k' B B' L L' H). Qed.
Ltac bytes_app := unfold bytes_ok in *; rewrite ?Forall_app; repeat split; assumption.
Ltac upto := unfold up_to; rewrite ?app_length; lia.
Lemma des_aa a : bytes_ok a -> length a = 8%nat -> same_cipher des_desc 0 a (a ++ a).
Proof.
  intros Ba A. apply des_same; [assumption|bytes_app|upto|upto|]. intros b Hb. rewrite des_two, des_one by assumption. now rewrite dec_enc by now apply length_sb.
Qed.
Lemma des_aac a c : bytes_ok a -> bytes_ok c -> length a = 8%nat -> length c = 8%nat -> same_cipher des_desc 0 c (a ++ a ++ c).
Proof.
  intros Ba Bc A C. apply des_same; [assumption|bytes_app|upto|upto|]. intros b Hb. rewrite des_three, des_one by assumption. now rewrite dec_enc by now apply length_sb.
Qed.
Lemma des_abb a b : bytes_ok a -> bytes_ok b -> length a = 8%nat -> length b = 8%nat -> same_cipher des_desc 0 a (a ++ b ++ b).
Proof.
  intros Ba Bb A B. apply des_same; [assumption|bytes_app|upto|upto|]. intros x Hx. rewrite des_three, des_one by assumption. now rewrite enc_dec by apply length_enc.
Qed.
Lemma des_aba a b : bytes_ok a -> bytes_ok b -> length a = 8%nat -> length b = 8%nat -> same_cipher des_desc 0 (a ++ b) (a ++ b ++ a).
Proof.
  intros Ba Bb A B. apply des_same; [bytes_app|bytes_app|upto|upto|]. intros x Hx. now rewrite des_three, des_two by assumption.
Qed.

(** ** DES: weak keys *)
Definition keys_opp (k k' : list N) : bool :=
  forallb (fun n => bools_eqb (fips_K (string_bits k') n) (fips_K (string_bits k) (15 - n))) (seq 0 16).
Definition keys_rev (k k' : N) : bool := keys_opp (be_bytes 8 k) (be_bytes 8 k').
Lemma rev_16 {A} (f : nat -> A) : rev (map f (seq 0 16)) = map (fun n => f (15 - n)%nat) (seq 0 16).
Proof. reflexivity. Qed.
Lemma keys_opp_ok k k' : blk 8 k -> blk 8 k' -> keys_opp k k' = true -> undone_by des_desc k k'.
Proof.
  intros [L B] [L' B'] H. unfold keys_opp in H. rewrite forallb_forall in H.
  assert (E : map (fips_K (string_bits k')) (seq 0 16) = rev (map (fips_K (string_bits k)) (seq 0 16))).
  { rewrite rev_16. apply map_ext_in. intros n Hn. apply bools_eqb_eq, H, Hn. }
  apply (undone_of des_desc (up_to 24) des_cipher des_published des_blk); try assumption; try (unfold up_to; lia).
  intros b Hb. change (blk 8 b) in Hb. rewrite !des_one by assumption.
  rewrite (proj2 (bits_blk _ (length_enc _ _))). rewrite (keys_undo _ _ _ E) by now apply length_sb. now apply string_blk.
Qed.
Lemma keys_rev_ok k k' : keys_rev k k' = true -> undone_by des_desc (be_bytes 8 k) (be_bytes 8 k').
Proof. exact (keys_opp_ok _ _ (blk_be_bytes 8 k) (blk_be_bytes 8 k')). Qed.
Lemma weak_check : forallb (fun k => keys_rev k k) des_weak = true. Proof. vm_compute. reflexivity. Qed.
Lemma semiweak_check : forallb (fun p => keys_rev (fst p) (snd p) && keys_rev (snd p) (fst p)) des_semiweak = true. Proof. vm_compute. reflexivity. Qed.
Lemma des_weak_ok k : In k des_weak -> undone_by des_desc (be_bytes 8 k) (be_bytes 8 k).
Proof. intros H. pose proof weak_check as W. rewrite forallb_forall in W. apply keys_rev_ok, W, H. Qed.
Lemma des_semiweak_ok k k' : In (k, k') des_semiweak -> undone_by des_desc (be_bytes 8 k) (be_bytes 8 k') /\ undone_by des_desc (be_bytes 8 k') (be_bytes 8 k).
Proof.
  intros H. pose proof semiweak_check as W. rewrite forallb_forall in W. apply W in H. cbn [fst snd] in H. apply andb_true_iff in H. destruct H as [H H'].
  split; now apply keys_rev_ok.
Qed.
