(** Two different messages with the same digest of BLAKE or BLAKE2, as the library computes them, give a collision of the compression function. *)
From Coq Require Import NArith Arith List Bool Lia.
From Verif Require Import Lib.Word Lib.Res Lib.Bytes Lib.WordSpec Lib.MemLemmas Lib.Lists Lib.WordsP Lib.Bij Model.HashApi Model.Blake
  Spec.Words Spec.Modes Spec.Sha2 Spec.Hash Spec.Blake Spec.Collision Proof.MdP Proof.MdCollP Proof.HashCollP Proof.BlakeCoreP Proof.BlakeP Proof.Blake2P Proof.DamageP.
Import ListNotations.
Local Open Scope N_scope.

Lemma fold_map {A B C} (f : A -> B -> A) (g : C -> B) l h : fold_left (fun h i => f h (g i)) l h = fold_left f (map g l) h.
Proof. revert h. induction l as [|x l IH]; intros h; [reflexivity|]. cbn [fold_left map]. apply IH. Qed.
Lemma seq_last n : (0 < n)%nat -> seq 0 n = seq 0 (n - 1) ++ [(n - 1)%nat].
Proof. intros H. replace n with (S (n - 1)) at 1 by lia. rewrite seq_S. reflexivity. Qed.
Lemma map_seq_block bs n P P' : (0 < bs)%nat -> length P = (n * bs)%nat -> length P' = (n * bs)%nat -> (forall i, (i < n)%nat -> block bs i P = block bs i P') -> P = P'.
Proof.
  intros Hb L L' E. apply (blocks_eq bs P' P); [exact Hb|congruence|]. intros j. destruct (Nat.lt_ge_cases j n) as [H|H]; [now apply E|].
  assert (Z : forall X : list N, length X = (n * bs)%nat -> block bs j X = []).
  { intros X LX. unfold block, slice. rewrite skipn_all2; [apply firstn_nil|]. rewrite LX. apply Nat.mul_le_mono_r, H. }
  rewrite !Z by assumption. reflexivity.
Qed.
Lemma blk_slice bs n i P : bytes_ok P -> length P = (n * bs)%nat -> (i < n)%nat -> blk bs (block bs i P).
Proof. intros B L Hi. unfold block. split; [|now apply bytes_slice]. apply length_slice. rewrite L. nia. Qed.

(** a chain value: 8 words *)
Definition chain_value (w : N) (h : list N) : Prop := length h = 8%nat /\ words_ok w h.
Section Compress.
  Variables (p : blakep) (F : blake_fn).
  Let w := bl_w F.
  Hypothesis Hw : bp_w p = w.
  Hypothesis Hrot : bp_rot p = bl_rot F.
  Hypothesis Hle : let '(r1, r2, r3, r4) := bl_rot F in r1 <= w /\ r2 <= w /\ r3 <= w /\ r4 <= w.
  Lemma rounds_good add R v : length v = 16%nat -> words_ok w v -> length (fold_left (mix_round F add) (seq 0 R) v) = 16%nat /\ words_ok w (fold_left (mix_round F add) (seq 0 R) v).
  Proof. intros L W. destruct (rounds_mix p F Hw Hrot Hle add (N.of_nat R) v L W) as (E & L1 & W1). rewrite Nat2N.id in E. rewrite E in L1, W1. now split. Qed.
  Lemma inw_t t : t < 2 ^ (2 * w) -> inw w (t mod 2 ^ w) /\ inw w (t / 2 ^ w).
  Proof.
    intros H. assert (0 < 2 ^ w) by (apply N.neq_0_lt_0, N.pow_nonzero; discriminate). split; [apply N.mod_lt; lia|]. apply N.div_lt_upper_bound; [lia|].
    rewrite <- N.pow_add_r. replace (w + w) with (2 * w) by lia. exact H.
  Qed.
  Lemma words_split v : words_ok w v -> words_ok w (firstn 8 v) /\ words_ok w (skipn 8 v).
  Proof. intros W. rewrite <- (firstn_skipn 8 v) in W. now apply Forall_app in W. Qed.
  Lemma compress_good R s h b t : length (pi_words w) = 16%nat -> words_ok w (pi_words w) -> length s = 4%nat -> words_ok w s -> chain_value w h -> t < 2 ^ (2 * w) -> chain_value w (blake_compress F R s h b t).
  Proof.
    intros LK WK Ls Ws [Lh Wh] Ht. destruct (inw_t t Ht) as [T0 T1]. unfold blake_compress. fold w. cbv zeta.
    set (v0 := h ++ xor_words _ _).
    assert (L0 : length v0 = 16%nat). { unfold v0, xor_words. rewrite app_length, map_length, combine_length, app_length, firstn_length, Lh, Ls, LK. reflexivity. }
    assert (W0 : words_ok w v0).
    { apply Forall_app. split; [exact Wh|]. apply words_xor_words; [apply Forall_app; split; [exact Ws|repeat constructor; assumption]|]. apply (words_split _ WK). }
    match goal with |- context [fold_left (mix_round F ?a) _ v0] => destruct (rounds_good a R v0 L0 W0) as [L1 W1]; set (v1 := fold_left (mix_round F a) (seq 0 R) v0) in * end.
    destruct (words_split v1 W1) as [Wa Wb]. split.
    - unfold xor_words. rewrite !map_length, !combine_length, !map_length, !combine_length, !map_length, !combine_length, app_length, firstn_length, skipn_length, Lh, L1, Ls. reflexivity.
    - repeat apply words_xor_words; try assumption. apply Forall_app. now split.
  Qed.
  Lemma compress2_good R iv h b t f : 0 < w -> length iv = 8%nat -> words_ok w iv -> chain_value w h -> t < 2 ^ (2 * w) -> chain_value w (blake2_compress F R iv h b t f).
  Proof.
    intros Hw0 Li Wi [Lh Wh] Ht. destruct (inw_t t Ht) as [T0 T1]. unfold blake2_compress. fold w. cbv zeta.
    set (v0 := h ++ xor_words _ _).
    assert (L0 : length v0 = 16%nat). { unfold v0, xor_words. rewrite app_length, map_length, combine_length, Lh, Li. reflexivity. }
    assert (Wf : inw w (if f then 2 ^ w - 1 else 0)) by (assert (0 < 2 ^ w) by (apply N.neq_0_lt_0, N.pow_nonzero; discriminate); unfold inw; destruct f; lia).
    assert (W0 : words_ok w v0).
    { apply Forall_app. split; [exact Wh|]. apply words_xor_words; [exact Wi|]. repeat constructor; try assumption; apply inw_0. }
    match goal with |- context [fold_left (mix_round F ?a) _ v0] => destruct (rounds_good a R v0 L0 W0) as [L1 W1]; set (v1 := fold_left (mix_round F a) (seq 0 R) v0) in * end.
    destruct (words_split v1 W1) as [Wa Wb]. split.
    - unfold xor_words. rewrite !map_length, !combine_length, !map_length, !combine_length, firstn_length, skipn_length, Lh, L1. reflexivity.
    - repeat apply words_xor_words; assumption.
  Qed.
End Compress.

Section Blake.
  Variables (F : blake_fn) (R : nat) (s iv : list N) (last : N).
  Let k := bl_k F.
  Let bs := (16 * bl_k F)%nat.
  Hypothesis Hk : (0 < k)%nat.
  Lemma bpad_length l : exists n, (0 < n)%nat /\ length (blake_pad F last l) = (n * bs)%nat /\ (length l < n * bs)%nat.
  Proof.
    unfold blake_pad. cbv zeta. change (16 * bl_k F)%nat with bs. change (bl_k F) with k. assert (Hb : (0 < bs)%nat) by (unfold bs; fold k; lia).
    assert (Hb' : bs = (16 * k)%nat) by reflexivity. rewrite !app_length, length_be_bytes.
    pose proof (Nat.div_mod (length l + 2 * k) bs ltac:(lia)) as D. pose proof (Nat.mod_upper_bound (length l + 2 * k) bs ltac:(lia)) as M.
    set (q := ((length l + 2 * k) / bs)%nat) in *. set (u := ((length l + 2 * k) mod bs)%nat) in *.
    assert (E : length (if (bs - u =? 1)%nat then [128 + last] else 128 :: repeat 0 (bs - u - 2) ++ [last]) = (bs - u)%nat).
    { destruct (Nat.eqb_spec (bs - u) 1); cbn [length]; [lia|]. rewrite app_length, repeat_length. cbn [length]. lia. }
    rewrite E. exists (S q). clearbody q u bs. split; [lia|]. split; nia.
  Qed.
  Lemma bpad_firstn l : firstn (length l) (blake_pad F last l) = l.
  Proof. unfold blake_pad. rewrite firstn_app, firstn_all, Nat.sub_diag. cbn [firstn]. apply app_nil_r. Qed.
  Let f := blake_step F R s.
  Let inp (l : list N) (i : nat) : list N * N := (block bs i (blake_pad F last l), 8 * N.of_nat (Nat.min (length l) ((i + 1) * bs))).
  Lemma blake_inputs_eq l n : length (blake_pad F last l) = (n * bs)%nat -> blake_inputs F last l = map (inp l) (seq 0 n).
  Proof. intros L. unfold blake_inputs. cbv zeta. change (16 * bl_k F)%nat with bs. rewrite L. assert (Hb : (0 < bs)%nat) by (unfold bs; fold k; lia). rewrite Nat.div_mul by lia. reflexivity. Qed.
  Lemma chain_inputs l : blake_chain F false R s iv last l = fold_left f (blake_inputs F last l) iv.
  Proof. unfold blake_chain, blake_inputs. cbv zeta. rewrite <- fold_map. reflexivity. Qed.
  Theorem blake_collision l l' : l <> l' -> blake_chain F false R s iv last l = blake_chain F false R s iv last l' -> collision_in f iv (blake_inputs F last l) (blake_inputs F last l').
  Proof.
    intros Ne E. assert (Hb : (0 < bs)%nat) by (unfold bs; fold k; lia).
    destruct (bpad_length l) as (n & Hn & L & Ll). destruct (bpad_length l') as (n' & Hn' & L' & Ll').
    rewrite !chain_inputs in E. rewrite (blake_inputs_eq l n L), (blake_inputs_eq l' n' L') in E |- *. rewrite (seq_last n Hn), (seq_last n' Hn'), !map_app in E |- *. cbn [map] in E |- *.
    assert (SL : snd (inp l (n - 1)) = snd (inp l' (n' - 1)) -> length l = length l').
    { cbn [inp snd]. replace (n - 1 + 1)%nat with n by lia. replace (n' - 1 + 1)%nat with n' by lia. rewrite !Nat.min_l by lia. lia. }
    apply (collision_find _ _ f list_dec
      ltac:(intros [a1 a2] [b1 b2]; destruct (list_dec a1 b1); [destruct (N.eq_dec a2 b2); [left; congruence|right; congruence]|right; congruence])); [| |exact E].
    - intros Ex. apply (f_equal snd), SL in Ex. rewrite !map_length, !seq_length.
      assert (n = n'); [|lia]. assert (EL : length (blake_pad F last l) = length (blake_pad F last l')) by (unfold blake_pad; rewrite !app_length, !length_be_bytes, Ex; destruct (Nat.eqb _ 1); reflexivity).
      rewrite L, L' in EL. apply (Nat.mul_cancel_r _ _ bs); [lia|exact EL].
    - intros EI. assert (Ln : length l = length l'). { apply (f_equal (fun z => List.last z (inp l 0))) in EI. rewrite !last_last in EI. apply (f_equal snd) in EI. exact (SL EI). }
      apply Ne. rewrite <- (bpad_firstn l), <- (bpad_firstn l'), Ln. f_equal.
      assert (En : n = n'). { apply (f_equal (@length _)) in EI. rewrite !app_length, !map_length, !seq_length in EI. cbn [length] in EI. lia. }
      subst n'. change [inp l (n - 1)%nat] with (map (inp l) [(n - 1)%nat]) in EI. change [inp l' (n - 1)%nat] with (map (inp l') [(n - 1)%nat]) in EI. rewrite <- !map_app, <- (seq_last n Hn) in EI.
      apply (map_seq_block bs n); [exact Hb|exact L|exact L'|]. intros i Hi.
      assert (G := f_equal (fun z => nth i z (inp l n)) EI). cbv beta in G. rewrite (nth_indep _ _ (inp l i)) in G by (rewrite map_length, seq_length; exact Hi).
      rewrite (nth_indep (map (inp l') _) _ (inp l' i)) in G by (rewrite map_length, seq_length; exact Hi).
      rewrite !(map_nth _ _ i), !seq_nth in G by exact Hi. cbn [Nat.add] in G. exact (f_equal fst G).
  Qed.
End Blake.

Section Blake2.
  Variables (F : blake_fn) (R : nat) (iv h0 : list N).
  Let k := bl_k F.
  Let bs := (16 * bl_k F)%nat.
  Hypothesis Hk : (0 < k)%nat.
  Let pad (l : list N) : list N := zero_pad (extra_block bs (length l) * bs) l.
  Let f := blake2_step F R iv.
  Let inp (l : list N) (i : nat) : list N * N * bool := (block bs i (pad l), N.of_nat ((i + 1) * bs), false).
  Let fin (l : list N) : list N * N * bool := (block bs (length l / bs) (pad l), N.of_nat (length l), true).
  Lemma blake2_inputs_eq l : blake2_inputs F l = map (inp l) (seq 0 (length l / bs)) ++ [fin l].
  Proof. reflexivity. Qed.
  Lemma chain2_inputs l : blake2_chain F (extra_block bs (length l)) R iv h0 l = fold_left f (blake2_inputs F l) h0.
  Proof.
    rewrite blake2_inputs_eq. unfold blake2_chain. change (16 * bl_k F)%nat with bs. rewrite fold_left_app. rewrite <- fold_map. unfold extra_block at 2 3. replace (S (length l / bs) - 1)%nat with (length l / bs)%nat by lia. reflexivity.
  Qed.
  Lemma pad2_length l : length (pad l) = (S (length l / bs) * bs)%nat.
  Proof.
    unfold pad, zero_pad, extra_block. rewrite app_length, repeat_length. assert (Hb : (0 < bs)%nat) by (unfold bs; fold k; lia).
    pose proof (Nat.mul_succ_div_gt (length l) bs ltac:(lia)) as M. rewrite Nat.mul_comm in M. lia.
  Qed.
  Theorem blake2_collision l l' : l <> l' ->
    blake2_chain F (extra_block bs (length l)) R iv h0 l = blake2_chain F (extra_block bs (length l')) R iv h0 l' -> collision_in f h0 (blake2_inputs F l) (blake2_inputs F l').
  Proof.
    intros Ne E. assert (Hb : (0 < bs)%nat) by (unfold bs; fold k; lia). rewrite !chain2_inputs in E. rewrite !blake2_inputs_eq in E |- *.
    apply (collision_find _ _ f list_dec
      ltac:(intros [[a1 a2] a3] [[b1 b2] b3]; destruct (list_dec a1 b1); [destruct (N.eq_dec a2 b2); [destruct (bool_dec a3 b3); [left; congruence|right; congruence]|right; congruence]|right; congruence])); [| |exact E].
    - intros Ex. apply (f_equal (fun z => snd (fst z))) in Ex. cbn [fin fst snd] in Ex. apply Nat2N.inj in Ex. rewrite !map_length, !seq_length, Ex. reflexivity.
    - intros EI. assert (Ef : fin l = fin l') by (apply (f_equal (fun z => List.last z (fin l))) in EI; now rewrite !last_last in EI).
      assert (Ln : length l = length l') by (apply (f_equal (fun z => snd (fst z))) in Ef; cbn [fin fst snd] in Ef; now apply Nat2N.inj in Ef).
      rewrite Ef in EI. apply app_inv_tail in EI. apply Ne.
      assert (EP : pad l = pad l').
      { apply (map_seq_block bs (S (length l / bs))); [exact Hb|apply pad2_length|rewrite pad2_length, Ln; reflexivity|]. intros i Hi.
        destruct (Nat.eq_dec i (length l / bs)) as [Ei|Ni].
        - apply (f_equal (fun z => fst (fst z))) in Ef. cbn [fin fst] in Ef. rewrite Ei. rewrite Ef, Ln. reflexivity.
        - rewrite <- Ln in EI. assert (Hi' : (i < length l / bs)%nat) by lia.
          assert (G := f_equal (fun z => nth i z (fin l)) EI). cbv beta in G. rewrite (nth_indep _ _ (inp l i)) in G by (rewrite map_length, seq_length; exact Hi').
          rewrite (nth_indep (map (inp l') _) _ (inp l' i)) in G by (rewrite map_length, seq_length; exact Hi').
          rewrite !(map_nth _ _ i), !seq_nth in G by exact Hi'. cbn [Nat.add] in G. exact (f_equal (fun z => fst (fst z)) G). }
      unfold pad in EP. rewrite Ln in EP. exact (zero_pad_inj _ l l' Ln EP).
  Qed.
End Blake2.

(** ** the functions of the library *)
Lemma pi32_ok : length (pi_words 32) = 16%nat /\ words_ok 32 (pi_words 32).
Proof. split; [reflexivity|]. rewrite <- K256_ok. words. Qed.
Lemma pi64_ok : length (pi_words 64) = 16%nat /\ words_ok 64 (pi_words 64).
Proof. split; [reflexivity|]. rewrite <- K512_ok. words. Qed.
Lemma all_of d r salt n (okm : nat -> Prop) H m : computes d r salt n n okm H -> bytes_ok m -> okm (length m) -> length (H m) = n -> hash_all d r salt m n = Ok (H m).
Proof.
  intros C B O L. specialize (C [m]). cbn [concat] in C. rewrite app_nil_r in C. destruct (C (Forall_cons _ B (Forall_nil _)) O) as [_ ->]. f_equal. apply firstn_all2. lia.
Qed.
Definition rounds_or (d r : N) : nat := N.to_nat (if r =? 0 then d else r).
Lemma salt_ok w k salt : w = 8 * N.of_nat k -> bytes_ok salt -> length (salt_words k salt) = 4%nat /\ words_ok w (salt_words k salt).
Proof. intros Hw B. unfold salt_words. split; [apply length_be_words|]. apply be_words_inw; [now apply bytes_zero_pad|exact Hw]. Qed.
Section BlakeAll.
  Variables (d : hash) (F : blake_fn) (s iv salt : list N) (last r dr : N) (n : nat).
  Let w := bl_w F.
  Let k := bl_k F.
  Hypothesis Hk : (0 < k)%nat.
  Hypothesis Hn : n = (8 * k)%nat.
  Hypothesis Hwk : w = 8 * N.of_nat k.
  Hypothesis Hiv : chain_value w iv.
  Hypothesis Hgood : forall h b t, chain_value w h -> t < 2 ^ (2 * w) -> chain_value w (blake_compress F (rounds_or dr r) s h b t).
  Hypothesis Hc : computes d r salt n n (fun len => 8 * N.of_nat len < 2 ^ (2 * w)) (fun l => be_string k (blake_chain F false (rounds_or dr r) s iv last l)).
  Theorem blake_all_collides m m' : bytes_ok m -> bytes_ok m' -> 8 * N.of_nat (length m) < 2 ^ (2 * w) -> 8 * N.of_nat (length m') < 2 ^ (2 * w) -> m <> m' ->
    hash_all d r salt m n = hash_all d r salt m' n -> collision_in (blake_step F (rounds_or dr r) s) iv (blake_inputs F last m) (blake_inputs F last m').
  Proof.
    intros B B' L L' Ne E.
    assert (A : forall z : list N, bytes_ok z -> 8 * N.of_nat (length z) < 2 ^ (2 * w) -> chain_value w (blake_chain F false (rounds_or dr r) s iv last z)).
    { intros z Bz Lz. unfold blake_chain. cbv zeta. generalize (seq 0 (length (blake_pad F last z) / (16 * bl_k F))). intros q. generalize Hiv. generalize iv. induction q as [|i q IH]; intros h Hh; [exact Hh|]. cbn [fold_left].
      apply IH. apply Hgood; [exact Hh|]. unfold blake_counter. cbn [andb]. lia. }
    assert (D : forall z : list N, bytes_ok z -> 8 * N.of_nat (length z) < 2 ^ (2 * w) -> hash_all d r salt z n = Ok (be_string k (blake_chain F false (rounds_or dr r) s iv last z))).
    { intros z Bz Lz. apply (all_of d r salt n _ _ z Hc Bz Lz). rewrite length_be_string, (proj1 (A z Bz Lz)). lia. }
    rewrite (D m B L), (D m' B' L') in E. apply Ok_inj in E. apply (be_string_inj w k 8) in E; [|exact Hwk|exact (A m B L)|exact (A m' B' L')].
    exact (blake_collision F (rounds_or dr r) s iv last Hk m m' Ne E).
  Qed.
End BlakeAll.
Lemma iv256_good : chain_value 32 iv256. Proof. rewrite iv256_ok. exact blake2s_IV_ok. Qed.
Lemma iv512_good : chain_value 64 iv512. Proof. rewrite iv512_ok. exact blake2b_IV_ok. Qed.
Lemma good256 R salt h b t : bytes_ok salt -> chain_value 32 h -> t < 2 ^ (2 * 32) -> chain_value 32 (blake_compress fb256 R (salt_words 4 salt) h b t).
Proof. intros Bs. exact (compress_good blake256p fb256 eq_refl eq_refl ltac:(cbn; lia) R (salt_words 4 salt) h b t (proj1 pi32_ok) (proj2 pi32_ok) (proj1 (salt_ok 32 4 salt eq_refl Bs)) (proj2 (salt_ok 32 4 salt eq_refl Bs))). Qed.
Lemma good512 R salt h b t : bytes_ok salt -> chain_value 64 h -> t < 2 ^ (2 * 64) -> chain_value 64 (blake_compress fb512 R (salt_words 8 salt) h b t).
Proof. intros Bs. exact (compress_good blake512p fb512 eq_refl eq_refl ltac:(cbn; lia) R (salt_words 8 salt) h b t (proj1 pi64_ok) (proj2 pi64_ok) (proj1 (salt_ok 64 8 salt eq_refl Bs)) (proj2 (salt_ok 64 8 salt eq_refl Bs))). Qed.
Lemma full256 r salt l : blake256_r false (N.to_nat (if r =? 0 then 14 else r)) salt 32 l = be_string 4 (blake_chain fb256 false (rounds_or 14 r) (salt_words 4 salt) iv256 1 l).
Proof. unfold blake256_r. generalize iv256 iv224. intros. reflexivity. Qed.
Lemma full512 r salt l : blake512_r false (N.to_nat (if r =? 0 then 16 else r)) salt 64 l = be_string 8 (blake_chain fb512 false (rounds_or 16 r) (salt_words 8 salt) iv512 1 l).
Proof. unfold blake512_r. generalize iv512 iv384. intros. reflexivity. Qed.
Lemma below8 a b (l : list N) : 8 * b = 2 ^ a -> below b (length l) -> 8 * N.of_nat (length l) < 2 ^ a.
Proof. unfold below. intros <- H. lia. Qed.
Theorem blake256_collides r salt m m' : bytes_ok salt -> (length salt <= 16)%nat -> bytes_ok m -> bytes_ok m' -> below (2 ^ 61) (length m) -> below (2 ^ 61) (length m') -> m <> m' ->
  hash_all hash_blake256 r salt m 32 = hash_all hash_blake256 r salt m' 32 -> 
    collision_in (blake_step fb256 (rounds_or 14 r) (salt_words 4 salt)) iv256 (blake_inputs fb256 1 m) (blake_inputs fb256 1 m').
Proof.
  intros Bs Ls B B' L L'.
  apply (blake_all_collides hash_blake256 fb256 (salt_words 4 salt) iv256 salt 1 r 14 32 ltac:(cbn; lia) eq_refl eq_refl iv256_good (fun h b t => good256 (rounds_or 14 r) salt h b t Bs)); [|exact B|exact B'|apply (below8 (2 * 32) (2 ^ 61)); [reflexivity|exact L]|apply (below8 (2 * 32) (2 ^ 61)); [reflexivity|exact L']].
  eapply computes_ext; [exact (blake256_computes r salt 32 Bs Ls ltac:(lia))|intros x Hx; exact Hx|intros l _; exact (full256 r salt l)].
Qed.
Theorem blake512_collides r salt m m' : bytes_ok salt -> (length salt <= 32)%nat -> bytes_ok m -> bytes_ok m' -> below (2 ^ 125) (length m) -> below (2 ^ 125) (length m') -> m <> m' ->
  hash_all hash_blake512 r salt m 64 = hash_all hash_blake512 r salt m' 64 -> 
    collision_in (blake_step fb512 (rounds_or 16 r) (salt_words 8 salt)) iv512 (blake_inputs fb512 1 m) (blake_inputs fb512 1 m').
Proof.
  intros Bs Ls B B' L L'.
  apply (blake_all_collides hash_blake512 fb512 (salt_words 8 salt) iv512 salt 1 r 16 64 ltac:(cbn; lia) eq_refl eq_refl iv512_good (fun h b t => good512 (rounds_or 16 r) salt h b t Bs)); [|exact B|exact B'|apply (below8 (2 * 64) (2 ^ 125)); [reflexivity|exact L]|apply (below8 (2 * 64) (2 ^ 125)); [reflexivity|exact L']].
  eapply computes_ext; [exact (blake512_computes r salt 64 Bs Ls ltac:(lia))|intros x Hx; exact Hx|intros l _; exact (full512 r salt l)].
Qed.
Section Blake2All.
  Variables (d : hash) (p : blakep) (F : blake_fn) (iv salt : list N) (r dr : N) (n : nat).
  Let w := bl_w F.
  Let k := bl_k F.
  Let bs := (16 * bl_k F)%nat.
  Let h0 := blake2_start F iv salt n.
  Hypothesis Hk : (0 < k)%nat.
  Hypothesis Hn : n = (8 * k)%nat.
  Hypothesis Hwk : w = 8 * N.of_nat k.
  Hypothesis Hh0 : chain_value w h0.
  Hypothesis Hgood : forall h b t f, chain_value w h -> t < 2 ^ (2 * w) -> chain_value w (blake2_compress F (rounds_or dr r) iv h b t f).
  Hypothesis Hc : computes d r salt n n (fun len => N.of_nat len < 2 ^ (2 * w)) (fun l => le_string k (blake2_chain F (extra_block bs (length l)) (rounds_or dr r) iv h0 l)).
  Theorem blake2_all_collides m m' : bytes_ok m -> bytes_ok m' -> N.of_nat (length m) < 2 ^ (2 * w) -> N.of_nat (length m') < 2 ^ (2 * w) -> m <> m' ->
    hash_all d r salt m n = hash_all d r salt m' n -> collision_in (blake2_step F (rounds_or dr r) iv) h0 (blake2_inputs F m) (blake2_inputs F m').
  Proof.
    intros B B' L L' Ne E.
    assert (A : forall z : list N, bytes_ok z -> N.of_nat (length z) < 2 ^ (2 * w) -> chain_value w (blake2_chain F (extra_block bs (length z)) (rounds_or dr r) iv h0 z)).
    { intros z Bz Lz. unfold blake2_chain. change (16 * bl_k F)%nat with bs. apply Hgood; [|exact Lz].
      assert (QS : forall i, In i (seq 0 (extra_block bs (length z) - 1)) -> N.of_nat ((i + 1) * bs) < 2 ^ (2 * w)).
      { intros i Hi. apply in_seq in Hi. unfold extra_block in Hi. apply N.le_lt_trans with (2 := Lz). assert (Hb : (0 < bs)%nat) by (unfold bs; fold k; lia).
        pose proof (Nat.mul_div_le (length z) bs ltac:(lia)) as M. assert ((i + 1) * bs <= length z)%nat; [|lia]. etransitivity; [|exact M]. rewrite (Nat.mul_comm bs). apply Nat.mul_le_mono_r. lia. }
      revert QS. generalize (seq 0 (extra_block bs (length z) - 1)). intros q. generalize Hh0. generalize h0. induction q as [|i q IH]; intros h Hh QS; [exact Hh|]. cbn [fold_left].
      apply IH; [|intros j Hj; apply QS; now right]. apply Hgood; [exact Hh|]. apply QS. now left. }
    assert (D : forall z, bytes_ok z -> N.of_nat (length z) < 2 ^ (2 * w) -> hash_all d r salt z n = Ok (le_string k (blake2_chain F (extra_block bs (length z)) (rounds_or dr r) iv h0 z))).
    { intros z Bz Lz. apply (all_of d r salt n _ _ z Hc Bz Lz). rewrite length_le_string, (proj1 (A z Bz Lz)). lia. }
    rewrite (D m B L), (D m' B' L') in E. apply Ok_inj in E. apply (le_string_inj w k 8) in E; [|exact Hwk|exact (A m B L)|exact (A m' B' L')].
    exact (blake2_collision F (rounds_or dr r) iv h0 Hk m m' Ne E).
  Qed.
End Blake2All.
Lemma good2s R h b t f : chain_value 32 h -> t < 2 ^ (2 * 32) -> chain_value 32 (blake2_compress fb2s R iv256 h b t f).
Proof. exact (compress2_good blake2sp fb2s eq_refl eq_refl ltac:(cbn; lia) R iv256 h b t f ltac:(cbn; lia) (proj1 iv256_good) (proj2 iv256_good)). Qed.
Lemma good2b R h b t f : chain_value 64 h -> t < 2 ^ (2 * 64) -> chain_value 64 (blake2_compress fb2b R iv512 h b t f).
Proof. exact (compress2_good blake2bp fb2b eq_refl eq_refl ltac:(cbn; lia) R iv512 h b t f ltac:(cbn; lia) (proj1 iv512_good) (proj2 iv512_good)). Qed.
Lemma start2_good F iv salt n : 32 <= bl_w F -> bl_w F = 8 * N.of_nat (bl_k F) -> (n <= 64)%nat -> chain_value (bl_w F) iv -> bytes_ok salt -> chain_value (bl_w F) (blake2_start F iv salt n).
Proof.
  intros H32 Hwk Hn [Li Wi] B. unfold blake2_start. cbv zeta. set (sw := le_words (bl_k F) 2 _).
  assert (Ws : words_ok (bl_w F) sw) by (apply le_words_inw; [now apply bytes_zero_pad|exact Hwk]). split.
  - unfold xor_words. rewrite map_length, combine_length, Li. reflexivity.
  - apply words_xor_words; [exact Wi|]. assert (W0 := words_nth (bl_w F) sw 0 Ws). assert (W1 := words_nth (bl_w F) sw 1 Ws).
    repeat constructor; try apply inw_0; try assumption. apply (inw_mono 32); [exact H32|]. unfold inw. change (2 ^ 32) with 4294967296. lia.
Qed.
Lemma start2s salt : bytes_ok salt -> chain_value 32 (blake2_start fb2s iv256 salt 32).
Proof. exact (start2_good fb2s iv256 salt 32 ltac:(cbn; lia) eq_refl ltac:(lia) iv256_good). Qed.
Lemma start2b salt : bytes_ok salt -> chain_value 64 (blake2_start fb2b iv512 salt 64).
Proof. exact (start2_good fb2b iv512 salt 64 ltac:(cbn; lia) eq_refl ltac:(lia) iv512_good). Qed.
Lemma full2s r salt l : blake2s_r (extra_block 64) (N.to_nat (if r =? 0 then 10 else r)) salt 32 l = le_string 4 (blake2_chain fb2s (extra_block 64 (length l)) (rounds_or 10 r) iv256 (blake2_start fb2s iv256 salt 32) l).
Proof. unfold blake2s_r, rounds_or. exact eq_refl. Qed.
Lemma full2b r salt l : blake2b_r (extra_block 128) (N.to_nat (if r =? 0 then 12 else r)) salt 64 l = le_string 8 (blake2_chain fb2b (extra_block 128 (length l)) (rounds_or 12 r) iv512 (blake2_start fb2b iv512 salt 64) l).
Proof. unfold blake2b_r, rounds_or. exact eq_refl. Qed.
Theorem blake2s_collides r salt m m' : bytes_ok salt -> (length salt <= 8)%nat -> bytes_ok m -> bytes_ok m' -> below (2 ^ 64) (length m) -> below (2 ^ 64) (length m') -> m <> m' ->
  hash_all hash_blake2s r salt m 32 = hash_all hash_blake2s r salt m' 32 -> 
    collision_in (blake2_step fb2s (rounds_or 10 r) iv256) (blake2_start fb2s iv256 salt 32) (blake2_inputs fb2s m) (blake2_inputs fb2s m').
Proof.
  intros Bs Ls.
  apply (blake2_all_collides hash_blake2s fb2s iv256 salt r 10 32 ltac:(cbn; lia) eq_refl eq_refl (start2s salt Bs) (good2s (rounds_or 10 r))).
  eapply computes_ext; [exact (blake2s_computes r salt 32 Bs Ls ltac:(lia))|intros x Hx; exact Hx|intros l _; exact (full2s r salt l)].
Qed.
Theorem blake2b_collides r salt m m' : bytes_ok salt -> (length salt <= 16)%nat -> bytes_ok m -> bytes_ok m' -> below (2 ^ 128) (length m) -> below (2 ^ 128) (length m') -> m <> m' ->
  hash_all hash_blake2b r salt m 64 = hash_all hash_blake2b r salt m' 64 -> 
    collision_in (blake2_step fb2b (rounds_or 12 r) iv512) (blake2_start fb2b iv512 salt 64) (blake2_inputs fb2b m) (blake2_inputs fb2b m').
Proof.
  intros Bs Ls.
  apply (blake2_all_collides hash_blake2b fb2b iv512 salt r 12 64 ltac:(cbn; lia) eq_refl eq_refl (start2b salt Bs) (good2b (rounds_or 12 r))).
  eapply computes_ext; [exact (blake2b_computes r salt 64 Bs Ls ltac:(lia))|intros x Hx; exact Hx|intros l _; exact (full2b r salt l)].
Qed.
