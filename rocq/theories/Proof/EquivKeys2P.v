(** Equivalent and weak keys of TEA, GOST, IDEA, RC4 and HMAC. *)
From Coq Require Import NArith Arith List Bool Lia.
From Verif Require Import Lib.Word Lib.Res Lib.While Lib.Bytes Lib.Bij Lib.Lists Lib.WordSpec Lib.WordsP Lib.BlockLemmas Lib.MemLemmas
  Spec.Words Spec.Block Spec.Cipher Spec.Modes Spec.Arx Spec.EquivKeys Spec.Rc4 Spec.Hash Spec.Mac Spec.Hmac
  Model.LoadStore Model.BlockApi Model.Ciphers Model.Tea Model.Gost Model.Idea Model.Rc4 Model.HashApi Model.MacApi Model.Hmac
  Proof.LoadStoreP Proof.RekeyP Proof.ModesBP Proof.TeaP Proof.ArxP Proof.Salsa20P Proof.GostP Proof.LeaPubP Proof.CiphersP Proof.Rc4P Proof.HmacP Proof.HmacPubP Proof.EquivKeysP.
Import ListNotations.
Local Open Scope N_scope.

(** ** The top bit of a word *)
Definition top : N := 2 ^ 31.
Definition flipped (w w' : N) : Prop := w' = w + top \/ w = w' + top.
Lemma flip_bit n x : N.lxor x (2 ^ n) = x + 2 ^ n \/ x = N.lxor x (2 ^ n) + 2 ^ n.
Proof.
  assert (G : forall y, N.testbit y n = false -> N.lxor y (2 ^ n) = y + 2 ^ n).
  { intros y H. symmetry. apply N.add_nocarry_lxor. apply N.bits_inj. intros i. rewrite N.land_spec, N.bits_0, N.pow2_bits_eqb.
    destruct (N.eqb_spec n i) as [<-|]; [now rewrite H|apply andb_false_r]. }
  destruct (N.testbit x n) eqn:E; [right|left; now apply G].
  rewrite <- G; [now rewrite N.lxor_assoc, N.lxor_nilpotent, N.lxor_0_r|]. now rewrite N.lxor_spec, N.pow2_bits_true, E.
Qed.
Lemma flip_byte x : N.lxor x 128 = x + 128 \/ x = N.lxor x 128 + 128.
Proof. exact (flip_bit 7 x). Qed.
Lemma flip_word x : flipped x (N.lxor x top).
Proof. exact (flip_bit 31 x). Qed.
Lemma flipped_sum a b a' b' : flipped a a' -> flipped b b' -> (a' + b') mod 2 ^ 32 = (a + b) mod 2 ^ 32.
Proof.
  unfold flipped. assert (T : top + top = 2 ^ 32) by reflexivity. assert (Z : 2 ^ 32 <> 0) by discriminate. revert T Z. generalize top, (2 ^ 32). intros t m T Z.
  intros [Ha|Ha] [Hb|Hb].
  - replace (a' + b') with ((a + b) + 1 * m) by lia. now apply N.mod_add.
  - f_equal. lia.
  - f_equal. lia.
  - replace (a + b) with ((a' + b') + 1 * m) by lia. symmetry. now apply N.mod_add.
Qed.
Lemma lxor_top_mod x : N.lxor (x mod 2 ^ 32) top = N.lxor x top mod 2 ^ 32.
Proof. rewrite <- !N.land_ones. apply N.bits_inj. intros i. rewrite N.lxor_spec, !N.land_spec, N.lxor_spec. unfold top. rewrite N.pow2_bits_eqb.
  destruct (N.eqb_spec 31 i) as [<-|]; [rewrite N.ones_spec_low by reflexivity; now destruct (N.testbit x 31)|].
  destruct (N.testbit x i), (N.testbit (N.ones 32) i); reflexivity.
Qed.
Lemma flipped_mod a b : flipped a b -> b mod 2 ^ 32 = N.lxor (a mod 2 ^ 32) top.
Proof.
  intros H. rewrite lxor_top_mod. pose proof (flipped_sum a 0 b top H (or_introl eq_refl)) as E. rewrite N.add_0_r in E.
  pose proof (flip_word a) as F. pose proof (flipped_sum a 0 (N.lxor a top) top F (or_introl eq_refl)) as E'. rewrite N.add_0_r in E'. rewrite <- E' in E.
  assert (Z : 2 ^ 32 <> 0) by discriminate.
  assert (G : forall x, ((x + top) mod 2 ^ 32 + top) mod 2 ^ 32 = x mod 2 ^ 32).
  { intros x. rewrite N.add_mod_idemp_l by exact Z. replace (x + top + top) with (x + 1 * 2 ^ 32) by (change (1 * 2 ^ 32) with (top + top); lia). now apply N.mod_add. }
  rewrite <- (G b), <- (G (N.lxor a top)). now rewrite E.
Qed.
Lemma flipped_plus x a b : flipped a b -> flipped (x + a) (x + b).
Proof. unfold flipped. lia. Qed.
Lemma wadd_flip x a b : flipped a b -> wadd 32 x b = N.lxor (wadd 32 x a) top.
Proof. intros H. unfold wadd. rewrite !mask_mod. apply flipped_mod. now apply flipped_plus. Qed.

(** ** TEA *)
Lemma tea_f_flip x c ka kb ka' kb' : flipped ka ka' -> flipped kb kb' -> tea_f x c ka' kb' = tea_f x c ka kb.
Proof.
  intros A B. unfold tea_f. rewrite (wadd_flip _ _ _ A), (wadd_flip _ _ _ B).
  generalize (wadd 32 (wshl 32 x 4) ka), (wadd 32 x c), (wadd 32 (wshr x 5) kb), top. intros p q r t.
  apply N.bits_inj. intros i. rewrite !N.lxor_spec. destruct (N.testbit p i), (N.testbit q i), (N.testbit r i), (N.testbit t i); reflexivity.
Qed.
Lemma wloop_ext {A B} (f g : A -> A + B) : (forall a, f a = g a) -> forall p a, wloop p f a = wloop p g a.
Proof.
  intros H. induction p as [p IH|p IH|]; intros a; cbn [wloop].
  - rewrite H. destruct (g a) as [a1|]; [|reflexivity]. rewrite IH. destruct (wloop p g a1); [apply IH|reflexivity].
  - rewrite IH. destruct (wloop p g a); [apply IH|reflexivity].
  - apply H.
Qed.
(** two words of the key, both flipped or both as they were *)
Definition pair_flip (a b a' b' : N) : Prop := a' = a /\ b' = b \/ flipped a a' /\ flipped b b'.
Lemma tea_f_pair x c ka kb ka' kb' : pair_flip ka kb ka' kb' -> tea_f x c ka' kb' = tea_f x c ka kb.
Proof. intros [[-> ->]|[A B]]; [reflexivity|now apply tea_f_flip]. Qed.
Lemma tea_flip_crypt s s' : tea_c s' = tea_c s ->
  (let k i := nth i (tea_k s) 0 in let k' i := nth i (tea_k s') 0 in
   pair_flip (k 0%nat) (k 1%nat) (k' 0%nat) (k' 1%nat) /\ pair_flip (k 2%nat) (k 3%nat) (k' 2%nat) (k' 3%nat)) ->
  forall b, tea_encrypt s' b = tea_encrypt s b /\ tea_decrypt s' b = tea_decrypt s b.
Proof.
  cbv zeta. intros C [P Q] b. unfold tea_encrypt, tea_decrypt, tea_run. rewrite C. split.
  - rewrite (wloop_ext (tea_enc_step s') (tea_enc_step s)); [reflexivity|]. intros [[c x0] x1]. unfold tea_enc_step. rewrite C. cbv zeta.
    destruct (c =? tea_c s); [reflexivity|]. now rewrite !(tea_f_pair _ _ _ _ _ _ P), !(tea_f_pair _ _ _ _ _ _ Q).
  - rewrite (wloop_ext (tea_dec_step s') (tea_dec_step s)); [reflexivity|]. intros [[c x0] x1]. unfold tea_dec_step. cbv zeta.
    destruct (c =? 0); [reflexivity|]. now rewrite !(tea_f_pair _ _ _ _ _ _ P), !(tea_f_pair _ _ _ _ _ _ Q).
Qed.
Definition tea_masks : list (list N) :=
  [[128; 0; 0; 0; 128; 0; 0; 0; 0; 0; 0; 0; 0; 0; 0; 0]; [0; 0; 0; 0; 0; 0; 0; 0; 128; 0; 0; 0; 128; 0; 0; 0];
   [128; 0; 0; 0; 128; 0; 0; 0; 128; 0; 0; 0; 128; 0; 0; 0]].
Lemma be_flip a b c d : flipped (be_val [a; b; c; d]) (be_val [N.lxor a 128; b; c; d]).
Proof. unfold be_val, flipped. cbn [rev app le_val]. change top with (128 * 16777216). destruct (flip_byte a) as [->| E]; [left; lia|right; rewrite E at 1; lia]. Qed.
Lemma le_flip a b c d : flipped (le_val [a; b; c; d]) (le_val [a; b; c; N.lxor d 128]).
Proof. unfold flipped. cbn [le_val]. change top with (128 * 16777216). destruct (flip_byte d) as [->| E]; [left; lia|right; rewrite E at 1; lia]. Qed.
Lemma bytes_mask l : forallb (fun x => x <? 256) l = true -> bytes_ok l.
Proof. intros H. rewrite forallb_forall in H. apply Forall_forall. intros x Hx. now apply N.ltb_lt, H. Qed.
Lemma tea_masked key m : blk 16 key -> In m tea_masks ->
  let k := be_words 4 4 key in let k' := be_words 4 4 (xor_bytes key m) in
  pair_flip (nth 0 k 0) (nth 1 k 0) (nth 0 k' 0) (nth 1 k' 0) /\ pair_flip (nth 2 k 0) (nth 3 k 0) (nth 2 k' 0) (nth 3 k' 0).
Proof.
  intros [L _] Hm. do 16 (destruct key as [|? key]; [discriminate L|]). destruct key; [|discriminate L].
  destruct Hm as [<-|[<-|[<-|[]]]]; cbn [xor_bytes]; rewrite ?N.lxor_0_r; unfold be_words, slice; cbn [seq map Nat.mul Nat.add skipn firstn nth];
    (split; [first [left; split; reflexivity|right; split; apply be_flip]..]).
Qed.
Lemma tea_equivalent r key m : bytes_ok key -> length key = 16%nat -> r < 2 ^ 32 -> In m tea_masks -> same_cipher tea_desc r key (xor_bytes key m).
Proof.
  intros B L Hr Hm.
  assert (Bm : blk 16 m) by (destruct Hm as [<-|[<-|[<-|[]]]]; (split; [reflexivity|apply bytes_mask; reflexivity])).
  pose proof (blk_xor 16 key m (conj L B) Bm) as [L' B'].
  assert (K : key_ok 16 key) by (split; [exact B|lia]). assert (K' : key_ok 16 (xor_bytes key m)) by (split; [exact B'|lia]).
  destruct (tea_perm r key K Hr) as (s & Es & [Ps _]).
  destruct (tea_perm r (xor_bytes key m) K' Hr) as (s' & Es' & _).
  exists s, s'. split; [exact Es|]. split; [exact Es'|]. intros b [Lb Bb]. destruct (Ps b Lb Bb) as (y & E & Ly & By & D). exists y.
  assert (Q : forall b, tea_encrypt s' b = tea_encrypt s b /\ tea_decrypt s' b = tea_decrypt s b).
  { unfold tea_create in Es, Es'. apply assert_inv in Es, Es'. destruct Es as [_ Es], Es' as [_ Es']. apply Ok_inj in Es, Es'. subst s s'.
    apply tea_flip_crypt; [reflexivity|]. cbn [tea_setup tea_k].
    rewrite (key32b_words key 4) by (auto; lia). rewrite (key32b_words (xor_bytes key m) 4) by (auto; lia).
    rewrite !zero_pad_full by lia. exact (tea_masked key m (conj L B) Hm). }
  split; [split; assumption|]. cbn [tea_desc bc_enc bc_dec]. destruct (Q b) as [Q1 _], (Q y) as [_ Q2]. rewrite Q1, Q2. repeat split; assumption.
Qed.

(** ** GOST *)
Lemma mod256_lxor a b : N.lxor a b mod 256 = N.lxor (a mod 256) (b mod 256).
Proof. change 256 with (2 ^ 8). rewrite <- !N.land_ones. apply N.bits_inj. intros i. rewrite N.lxor_spec, !N.land_spec, N.lxor_spec.
  destruct (N.testbit a i), (N.testbit b i), (N.testbit (N.ones 8) i); reflexivity. Qed.
Lemma div256_lxor a b : N.lxor a b / 256 = N.lxor (a / 256) (b / 256).
Proof. change 256 with (2 ^ 8). rewrite <- !N.shiftr_div_pow2. apply N.shiftr_lxor. Qed.
Lemma le_bytes_lxor n : forall a b, le_bytes n (N.lxor a b) = xor_bytes (le_bytes n a) (le_bytes n b).
Proof. induction n as [|n IH]; intros a b; [reflexivity|]. cbn [le_bytes xor_bytes]. now rewrite mod256_lxor, div256_lxor, IH. Qed.
Definition gost_mask : list N := [0; 0; 0; 128; 0; 0; 0; 128].
Lemma le_string2 x y : le_string 4 [N.lxor x top; N.lxor y top] = xor_bytes (le_string 4 [x; y]) gost_mask.
Proof. unfold le_string. cbn [flat_map]. rewrite !le_bytes_lxor, !app_nil_r. cbn [le_bytes xor_bytes app]. reflexivity. Qed.
Section Gost.
  Variable sb : list (list N).
  Hypothesis Hs : nibbles sb.
  Lemma gost_fn_inw x : inw 32 (gost_fn sb x).
  Proof. rewrite <- gost_f_fn by exact Hs. apply gost_f_inw. Qed.
  Definition flip2 (v : N * N) : N * N := (N.lxor (fst v) top, N.lxor (snd v) top).
  Lemma gost_round_flip v k k' : flipped k k' -> gost_round sb (flip2 v) k' = flip2 (gost_round sb v k).
  Proof.
    intros H. unfold gost_round, flip2. cbn [fst snd].
    replace (add32 (N.lxor (fst v) top) k') with (add32 (fst v) k); [|unfold add32, plus_w; symmetry; apply flipped_sum; [apply flip_word|exact H]].
    f_equal. rewrite !N.lxor_assoc. f_equal. apply N.lxor_comm.
  Qed.
  Lemma gost_rounds_flip l l' : Forall2 flipped l l' -> forall v, fold_left (gost_round sb) l' (flip2 v) = flip2 (fold_left (gost_round sb) l v).
  Proof. induction 1 as [|k k' l l' H _ IH]; intros v; [reflexivity|]. cbn [fold_left]. rewrite (gost_round_flip v k k' H). apply IH. Qed.
  Lemma map_flipped K K' l : (forall i, flipped (word K i) (word K' i) \/ ~ In i l) -> Forall2 flipped (map (word K) l) (map (word K') l).
  Proof.
    induction l as [|i l IH]; intros H; [constructor|]. cbn [map]. constructor.
    - destruct (H i) as [G|G]; [exact G|]. exfalso. apply G. now left.
    - apply IH. intros j. destruct (H j) as [G|G]; [now left|]. right. intros C. apply G. now right.
  Qed.
  Lemma gost_block_flip pt : blk 8 pt -> let w := le_words 4 2 pt in let w' := le_words 4 2 (xor_bytes pt gost_mask) in
    word w' 0 = N.lxor (word w 0) top /\ word w' 1 = N.lxor (word w 1) top.
  Proof.
    intros [L B] w w'. pose proof (le_words_inw 4 32 2 pt B eq_refl) as W.
    assert (F : forall a b, inw 32 a -> inw 32 b -> flipped a b -> b = N.lxor a top).
    { intros a b Ha Hb H. apply flipped_mod in H. unfold inw in *. now rewrite !N.mod_small in H by assumption. }
    assert (B' : bytes_ok (xor_bytes pt gost_mask)) by (apply (blk_xor 8); [now split|split; [reflexivity|apply bytes_mask; reflexivity]]).
    pose proof (le_words_inw 4 32 2 _ B' eq_refl) as W'. fold w in W. fold w' in W'.
    assert (G : forall i, inw 32 (word w i) /\ inw 32 (word w' i)) by (intros i; split; unfold word; apply words_nth; assumption).
    assert (H : flipped (word w 0) (word w' 0) /\ flipped (word w 1) (word w' 1)).
    { unfold w, w'. do 8 (destruct pt as [|? pt]; [discriminate L|]). destruct pt; [|discriminate L].
      cbn [xor_bytes gost_mask]; rewrite ?N.lxor_0_r; unfold word, le_words, slice; cbn [seq map Nat.mul Nat.add skipn firstn nth]. split; apply le_flip. }
    split; apply F; apply G || apply H.
  Qed.
  Lemma gost_key_flip key : length key = 32%nat -> forall i, (i < 8)%nat ->
    flipped (word (le_words 4 8 key) i) (word (le_words 4 8 (xor_bytes key (times 8 [0; 0; 0; 128]))) i).
  Proof.
    intros L i Hi. unfold word. rewrite !nth_le_words by exact Hi.
    do 32 (destruct key as [|? key]; [discriminate L|]). destruct key; [|discriminate L].
    unfold times. cbn [repeat concat app xor_bytes]. rewrite ?N.lxor_0_r. unfold slice.
    do 8 (destruct i as [|i]; [cbn [Nat.mul Nat.add skipn firstn]; apply le_flip|]). lia.
  Qed.
  Lemma gost_blk k b : blk (bc_bs (gost_desc sb)) b -> blk (bc_bs (gost_desc sb)) (gost_cipher sb k b).
  Proof.
    intros _. change (bc_bs (gost_desc sb)) with 8%nat. unfold gost_cipher. cbv zeta. destruct (fold_left _ _ _) as [x y]. cbn [fst snd].
    split; [now rewrite length_le_string|apply bytes_le_string].
  Qed.
  Lemma gost_flips key : bytes_ok key -> length key = 32%nat -> flips (gost_desc sb) gost_mask key (xor_bytes key (times 8 [0; 0; 0; 128])).
  Proof.
    intros B L. assert (Bm : blk 32 (times 8 [0; 0; 0; 128])) by (split; [reflexivity|apply bytes_mask; reflexivity]).
    pose proof (blk_xor 32 key _ (conj L B) Bm) as [L' B'].
    apply (flips_of (gost_desc sb) (sized [32%nat]) (gost_cipher sb) (gost_published sb Hs) gost_blk).
    - exact B.
    - exact B'.
    - left. now symmetry.
    - left. now symmetry.
    - split; [reflexivity|apply bytes_mask; reflexivity].
    - intros b Hb. change (blk 8 b) in Hb. unfold gost_cipher. cbv zeta. destruct (gost_block_flip b Hb) as [E0 E1]. rewrite E0, E1.
      set (v := (word (le_words 4 2 b) 0, word (le_words 4 2 b) 1)).
      change (N.lxor (word (le_words 4 2 b) 0) top, N.lxor (word (le_words 4 2 b) 1) top) with (flip2 v).
      rewrite (gost_rounds_flip (map (word (le_words 4 8 key)) gost_order)).
      + unfold flip2. cbn [fst snd]. apply le_string2.
      + apply map_flipped. intros i. destruct (Nat.lt_ge_cases i 8) as [Hi|Hi]; [left; now apply gost_key_flip|right].
        intros C. assert (Q : forallb (fun i => (i <? 8)%nat) gost_order = true) by reflexivity. rewrite forallb_forall in Q. apply Q, Nat.ltb_lt in C. lia.
  Qed.
  (** keys that are the same read from both ends *)
  Definition gswap (v : N * N) : N * N := (snd v, fst v).
  Lemma gost_round_undo v k : gost_round sb (gswap (gost_round sb v k)) k = gswap v.
  Proof. destruct v as [a b]. unfold gost_round, gswap. cbn [fst snd]. now rewrite N.lxor_assoc, N.lxor_nilpotent, N.lxor_0_r. Qed.
  Lemma gost_rounds_undo ks : forall v, fold_left (gost_round sb) (rev ks) (gswap (fold_left (gost_round sb) ks v)) = gswap v.
  Proof.
    induction ks as [|k ks IH]; intros v; [reflexivity|]. cbn [rev fold_left]. rewrite fold_left_app. cbn [fold_left]. rewrite IH. apply gost_round_undo.
  Qed.
  Lemma gost_rounds_inw ks : forall v, inw 32 (fst v) /\ inw 32 (snd v) -> let u := fold_left (gost_round sb) ks v in inw 32 (fst u) /\ inw 32 (snd u).
  Proof.
    induction ks as [|k ks IH]; intros v H; [exact H|]. cbn [fold_left]. apply IH. unfold gost_round. cbn [fst snd]. split; [apply inw_lxor; [apply H|apply gost_fn_inw]|apply H].
  Qed.
  Lemma gost_order_rev K : length K = 8%nat -> rev K = K -> rev (map (word K) gost_order) = map (word K) gost_order.
  Proof.
    intros L R. do 8 (destruct K as [|? K]; [discriminate L|]). destruct K; [|discriminate L]. cbn [rev app] in R. injection R as <- <- <- <- . reflexivity.
  Qed.
  Lemma gost_involution key : bytes_ok key -> length key = 32%nat -> rev (le_words 4 8 key) = le_words 4 8 key -> undone_by (gost_desc sb) key key.
  Proof.
    intros B L R. apply (undone_of (gost_desc sb) (sized [32%nat]) (gost_cipher sb) (gost_published sb Hs) gost_blk); try exact B; try (left; now symmetry).
    intros b Hb. change (blk 8 b) in Hb. unfold gost_cipher. cbv zeta. pose proof (gost_order_rev _ (length_le_words 4 8 key) R) as O.
    set (ks := map (word (le_words 4 8 key)) gost_order) in *. clearbody ks.
    pose proof (le_words_inw 4 32 2 b (proj2 Hb) eq_refl) as W.
    pose proof (gost_rounds_inw ks (word (le_words 4 2 b) 0, word (le_words 4 2 b) 1) (conj (words_nth _ _ 0 W) (words_nth _ _ 1 W))) as V.
    pose proof (gost_rounds_undo ks (word (le_words 4 2 b) 0, word (le_words 4 2 b) 1)) as U. rewrite O in U.
    set (v := fold_left (gost_round sb) ks (word (le_words 4 2 b) 0, word (le_words 4 2 b) 1)) in *. clearbody v. cbv zeta in V.
    rewrite (le_words_string 2 [snd v; fst v]) by (repeat constructor; apply V). change (word [snd v; fst v] 0) with (snd v). change (word [snd v; fst v] 1) with (fst v). unfold gswap in U. rewrite U. cbn [fst snd].
    assert (E : le_words 4 2 b = [word (le_words 4 2 b) 0; word (le_words 4 2 b) 1]) by reflexivity. rewrite <- E.
    rewrite <- stores32l_le. rewrite <- (zero_pad_full 8 b) at 1 by (destruct Hb as [-> _]; lia). change 8%nat with (4 * 2)%nat at 1.
    rewrite <- (loads32l_le 2 b) by (try apply Hb; destruct Hb as [-> _]; lia). exact (stores_loads codec32l 2 b Hb).
  Qed.
End Gost.

(** ** IDEA: the zero key *)
Lemma idea_zero_dk : idea_dk (idea_setup 8 (repeat 0 16)) = idea_ek (idea_setup 8 (repeat 0 16)). Proof. vm_compute. reflexivity. Qed.
Lemma idea_zero n : (0 < n <= 16)%nat -> undone_by idea_desc (repeat 0 n) (repeat 0 n).
Proof.
  intros Hn. destruct (idea_default (repeat 0 n)) as (s & Es & W); [split; [apply bytes_repeat0|rewrite repeat_length; exact Hn]|].
  exists s, s. split; [exact Es|]. split; [exact Es|]. intros b [Lb Bb]. destruct W as (_ & W & _). destruct (W b Lb Bb) as (y & E & Ly & By & D). exists y.
  split; [now split|]. split; [exact E|]. rewrite <- D. cbn [idea_desc bc_enc bc_dec bc_create] in *. unfold idea_encrypt, idea_decrypt.
  unfold idea_create in Es. apply assert_inv in Es. destruct Es as [_ Es]. apply fits_inv in Es. destruct Es as [_ Es]. apply Ok_inj in Es. subst s.
  change (idea_rounds 0) with 8. f_equal. symmetry.
  assert (Ek : idea_setup 8 (repeat 0 n) = idea_setup 8 (repeat 0 16)).
  { clear -Hn. destruct n as [|n]; [lia|]. do 16 (destruct n as [|n]; [vm_compute; reflexivity|]). lia. }
  rewrite Ek. exact idea_zero_dk.
Qed.

(** ** RC4: a key and its repetitions *)
Lemma nth_times n l i : (i < n * length l)%nat -> nth i (times n l) 0 = nth (i mod length l) l 0.
Proof.
  revert i. induction n as [|n IH]; intros i Hi; [lia|]. unfold times in *. cbn [repeat concat].
  assert (L : length l <> 0%nat) by (intros Z; rewrite Z in Hi; lia).
  destruct (Nat.lt_ge_cases i (length l)) as [H|H].
  - rewrite app_nth1 by exact H. now rewrite Nat.mod_small.
  - rewrite app_nth2 by exact H. rewrite IH by lia. f_equal. replace i with ((i - length l) + 1 * length l)%nat at 2 by lia. now rewrite Nat.mod_add.
Qed.
Lemma length_times n l : length (times n l) = (n * length l)%nat.
Proof. unfold times. induction n as [|n IH]; [reflexivity|]. cbn [repeat concat Nat.mul]. now rewrite app_length, IH. Qed.
Lemma bytes_times n l : bytes_ok l -> bytes_ok (times n l).
Proof. intros H. unfold times. induction n as [|n IH]; [constructor|]. cbn [repeat concat]. apply bytes_app. now split. Qed.
Lemma ksa_times n key m : (0 < n)%nat -> key <> [] -> ksa (times n key) m = ksa key m.
Proof.
  intros Hn Hk. assert (L : length key <> 0%nat) by (destruct key; [congruence|discriminate]).
  Transparent ksa. induction m as [|m IH]; [reflexivity|]. cbn [ksa]. rewrite IH. rewrite length_times.
  rewrite nth_times by (apply Nat.mod_upper_bound; lia).
  replace ((m mod (n * length key)) mod length key)%nat with (m mod length key)%nat; [reflexivity|].
  rewrite (Nat.mul_comm n). rewrite Nat.mod_mul_r by lia. rewrite Nat.mul_comm, Nat.mod_add by lia. now rewrite Nat.mod_mod.
Qed.
Lemma rc4_at_unique p n s s' : rc4_at p n s -> rc4_at p n s' -> s = s'.
Proof.
  unfold rc4_at. destruct (prga p n) as [[q i] j]. intros ((L & H & _) & Hi & Hj & _) ((L' & H' & _) & Hi' & Hj' & _).
  destruct s as [sp si sj], s' as [sp' si' sj']. cbn [rc4_p rc4_i rc4_j] in *. subst. f_equal.
  apply nth_ext with (d := 0) (d' := 0); [congruence|]. intros x Hx. rewrite L in Hx. now rewrite H, H'.
Qed.
Lemma rc4_repeated r n key : (0 < n)%nat -> (0 < length key)%nat -> (n * length key <= 256)%nat ->
  exists s, rc4_create r key [] = Ok s /\ rc4_create r (times n key) [] = Ok s.
Proof.
  intros Hn Hk Hl. destruct (rc4_create_total r key) as (s & Es); [nia|]. destruct (rc4_create_total r (times n key)) as (s' & Es'); [rewrite length_times; nia|].
  exists s. split; [exact Es|]. rewrite Es'. f_equal.
  pose proof (rc4_started_inv r key s (or_introl Es)) as A. pose proof (rc4_started_inv r _ s' (or_introl Es')) as A'.
  rewrite ksa_times in A' by (try assumption; intros ->; cbn in Hk; lia). exact (rc4_at_unique _ _ _ _ A' A).
Qed.

(** ** HMAC *)
Lemma zero_pad_zeros n l z : (length l + z <= n)%nat -> zero_pad n (l ++ repeat 0 z) = zero_pad n l.
Proof.
  intros H. unfold zero_pad. rewrite <- app_assoc, <- repeat_app. f_equal. f_equal. rewrite app_length, repeat_length. lia.
Qed.
Lemma hmac_zeros B H key z m : (length key + z <= B)%nat -> hmac B H (key ++ repeat 0 z) m = hmac B H key m.
Proof.
  intros L. unfold hmac, hmac_key, pad_key. rewrite app_length, repeat_length.
  rewrite !(proj2 (Nat.leb_le _ _)) by lia. rewrite zero_pad_zeros by exact L. reflexivity.
Qed.
Lemma hmac_hashed B H key m : (B < length key)%nat -> (length (H key) <= B)%nat -> hmac B H (H key) m = hmac B H key m.
Proof.
  intros L L'. unfold hmac, hmac_key. rewrite (proj2 (Nat.leb_le _ _) L'), (proj2 (Nat.leb_gt _ _) L). reflexivity.
Qed.
Section Hmac.
  Variables (d : hash) (n cap : nat) (lim : N) (H : list N -> list N).
  Hypothesis C : computes d 0 [] n cap (fun l => N.of_nat l < lim) H.
  Hypothesis D : digests n (fun l => N.of_nat l < lim) H.
  Hypothesis Hc : (n <= cap)%nat.
  Hypothesis Hn : (0 < n <= hs_blocksize d)%nat.
  Hypothesis Hl : (N.of_nat (hs_blocksize d + n) <? lim) = true.
  Let okm := fun l : nat => N.of_nat (hs_blocksize d + l) < lim.
  Lemma mac_computes_ext T T' key : (forall m, T m = T' m) -> mac_computes (hmac_desc d) 0 key n (eq [n]) okm T -> mac_computes (hmac_desc d) 0 key n (eq [n]) okm T'.
  Proof.
    intros E [G A]. split.
    - intros parts Hp Hm. destruct (G parts Hp Hm) as [G1 G2]. split.
      + intros lens Hlens. rewrite <- E. now apply G1.
      + intros tag Bt Nt Ht. rewrite <- E. now apply G2.
    - intros msg Bm Hm. rewrite <- E. now apply A.
  Qed.
  Lemma hmac_same_zeros key z : bytes_ok key -> (0 < length key)%nat -> (length key + z <= hs_blocksize d)%nat ->
    exists T, mac_computes (hmac_desc d) 0 key n (eq [n]) okm T /\ mac_computes (hmac_desc d) 0 (key ++ repeat 0 z) n (eq [n]) okm T.
  Proof.
    intros B L Z. apply N.ltb_lt in Hl as Hl'. exists (hmac (hs_blocksize d) (fun m => firstn n (H m)) key). split.
    - apply (hmac_lim d n cap lim H C D Hc (proj2 Hn) Hl key B L). lia.
    - eapply mac_computes_ext; [intros m; apply (hmac_zeros (hs_blocksize d) (fun m => firstn n (H m)) key z m Z)|].
      apply (hmac_lim d n cap lim H C D Hc (proj2 Hn) Hl); [apply bytes_app; split; [exact B|apply bytes_repeat0]| |]; rewrite app_length, ?repeat_length; lia.
  Qed.
  Lemma hmac_same_hashed key : bytes_ok key -> (hs_blocksize d < length key)%nat -> N.of_nat (length key) < lim ->
    exists T, mac_computes (hmac_desc d) 0 key n (eq [n]) okm T /\ mac_computes (hmac_desc d) 0 (firstn n (H key)) n (eq [n]) okm T.
  Proof.
    intros B L Z. apply N.ltb_lt in Hl as Hl'. destruct (D key B Z) as [DB DL]. exists (hmac (hs_blocksize d) (fun m => firstn n (H m)) key).
    assert (LH : length (firstn n (H key)) = n) by (rewrite firstn_length; lia). split.
    - apply (hmac_lim d n cap lim H C D Hc (proj2 Hn) Hl key B); [lia|exact Z].
    - eapply mac_computes_ext; [intros m; apply (hmac_hashed (hs_blocksize d) (fun m => firstn n (H m)) key m L); cbv beta; lia|].
      apply (hmac_lim d n cap lim H C D Hc (proj2 Hn) Hl); [now apply bytes_firstn| |]; rewrite LH; lia.
  Qed.
End Hmac.
