(** Rijndael: encryption and decryption are those of FIPS 197, and they are inverse. *)
From Coq Require Import NArith Arith List Bool Lia.
From Verif Require Import Lib.Word Lib.Res Lib.Bytes Lib.Bij Lib.Bits Lib.GfP Lib.WordSpec Lib.Lists Lib.WordsP Lib.BlockLemmas
  Model.LoadStore Model.BlockApi Model.Rijndael Spec.Block Spec.Gf Spec.Words Spec.Aes Proof.LoadStoreP Proof.RijndaelTab.
Import ListNotations.
Local Open Scope N_scope.

(** ** Layers *)
Definition shape (nb : nat) (ix dx : list (nat * nat * nat * nat)) : Prop :=
  (nb = 4%nat /\ ix = rj_ix128 /\ dx = rj_dx128) \/ (nb = 8%nat /\ ix = rj_ix256 /\ dx = rj_dx256).
Lemma layer_gen (f : N -> N -> N -> N -> N) (g : list N -> list N) (s : N -> N) nb (ix : list (nat * nat * nat * nat)) (p : nat -> nat -> nat) x :
  (forall x0 x1 x2 x3, inw 32 x0 -> inw 32 (f x0 x1 x2 x3) /\ col (f x0 x1 x2 x3) = g [s (byte4 x0 0); s (byte4 x1 1); s (byte4 x2 2); s (byte4 x3 3)]) ->
  ix = map (fun c => (p c 0, p c 1, p c 2, p c 3))%nat (seq 0 nb) -> (forall c r, (c < nb)%nat -> (r < 4)%nat -> (p c r < nb)%nat) ->
  regs 32 nb x ->
  regs 32 nb (rj_layer f ix x) /\
  cols (rj_layer f ix x) = map g (map (fun c => map (fun r => cell (map (map s) (cols x)) r (p c r)) (seq 0 4)) (seq 0 nb)).
Proof.
  intros Hf -> Hp [L W]. unfold rj_layer. rewrite !map_map. split.
  - split; [now rewrite map_length, seq_length|]. apply Forall_forall. intros y Hy. apply in_map_iff in Hy. destruct Hy as (c & <- & Hc).
    apply Hf. now apply words_nth.
  - apply map_ext_in. intros c Hc. apply in_seq in Hc. rewrite (proj2 (Hf _ _ _ _ (words_nth _ _ _ W))). f_equal. cbn [map seq].
    assert (Q : forall r, (r < 4)%nat -> cell (map (fun w => map s (col w)) x) r (p c r) = s (byte4 (nth (p c r) x 0) r)).
    { intros r Hr. unfold cell. assert (B := Hp c r ltac:(lia) Hr). rewrite (nth_map_lt (fun w => map s (col w)) x (p c r) [] 0) by lia.
      rewrite (nth_map_lt s (col _) r 0 0) by (rewrite length_be_bytes; exact Hr). f_equal. rewrite col_bytes.
      destruct r as [|[|[|[|r]]]]; try reflexivity. lia. }
    rewrite !Q by lia. reflexivity.
Qed.
Lemma shift_ix nb ix dx : shape nb ix dx -> ix = map (fun c => ((c + shift nb 0) mod nb, (c + shift nb 1) mod nb, (c + shift nb 2) mod nb, (c + shift nb 3) mod nb))%nat (seq 0 nb).
Proof. intros [(-> & -> & _)|(-> & -> & _)]; reflexivity. Qed.
Lemma shift_dx nb ix dx : shape nb ix dx -> dx = map (fun c => ((c + nb - shift nb 0) mod nb, (c + nb - shift nb 1) mod nb, (c + nb - shift nb 2) mod nb, (c + nb - shift nb 3) mod nb))%nat (seq 0 nb).
Proof. intros [(-> & _ & ->)|(-> & _ & ->)]; reflexivity. Qed.
Lemma shape_pos nb ix dx : shape nb ix dx -> (0 < nb)%nat.
Proof. intros [(-> & _)|(-> & _)]; lia. Qed.

Section Sh.
  Context {nb : nat} {ix dx : list (nat * nat * nat * nat)} (Sh : shape nb ix dx).
  Lemma E_layer x : regs 32 nb x -> regs 32 nb (rj_layer rj_E ix x) /\ cols (rj_layer rj_E ix x) = mix_columns (shift_rows nb (sub_bytes (cols x))).
  Proof.
    intros R. pose proof (shape_pos _ _ _ Sh). unfold mix_columns, shift_rows, sub_bytes.
    apply (layer_gen rj_E (mat mix_m) sb nb ix (fun c r => (c + shift nb r) mod nb)%nat);
      [apply E_col|apply (shift_ix _ _ _ Sh)|intros; apply Nat.mod_upper_bound; lia|exact R].
  Qed.
  Lemma EL_layer x : regs 32 nb x -> regs 32 nb (rj_layer rj_EL ix x) /\ cols (rj_layer rj_EL ix x) = shift_rows nb (sub_bytes (cols x)).
  Proof.
    intros R. pose proof (shape_pos _ _ _ Sh). rewrite <- (map_id (shift_rows nb (sub_bytes (cols x)))). unfold shift_rows, sub_bytes.
    apply (layer_gen rj_EL (fun c => c) sb nb ix (fun c r => (c + shift nb r) mod nb)%nat);
      [apply EL_col|apply (shift_ix _ _ _ Sh)|intros; apply Nat.mod_upper_bound; lia|exact R].
  Qed.
  Lemma sub_shift s : inv_sub_bytes (inv_shift_rows nb s) = map (fun c => map (fun r => isb (cell s r ((c + nb - shift nb r) mod nb))) (seq 0 4)) (seq 0 nb).
  Proof. unfold inv_sub_bytes, inv_shift_rows. rewrite map_map. apply map_ext. intros c. now rewrite map_map. Qed.
  Lemma cell_map s f r c : (c < length s)%nat -> Forall (fun w => length w = 4%nat) s -> (r < 4)%nat -> cell (map (map f) s) r c = f (cell s r c).
  Proof.
    intros Hc Hw Hr. unfold cell. rewrite (nth_map_lt (map f) s c [] []) by exact Hc. apply (nth_map_lt f _ r 0 0).
    rewrite Forall_forall in Hw. rewrite Hw; [exact Hr|]. now apply nth_In.
  Qed.
  Lemma cols_four x : Forall (fun w : list N => length w = 4%nat) (cols x).
  Proof. apply Forall_forall. intros w Hw. apply in_map_iff in Hw. destruct Hw as (y & <- & _). apply length_be_bytes. Qed.
  Lemma dec_sub_shift x : length x = nb ->
    map (fun c => map (fun r => cell (map (map isb) (cols x)) r ((c + nb - shift nb r) mod nb)) (seq 0 4)) (seq 0 nb) = inv_sub_bytes (inv_shift_rows nb (cols x)).
  Proof.
    intros L. pose proof (shape_pos _ _ _ Sh). rewrite sub_shift. apply map_ext_in. intros c Hc. apply map_ext_in. intros r Hr. apply in_seq in Hr.
    apply cell_map; [rewrite map_length, L; apply Nat.mod_upper_bound; lia|apply cols_four|lia].
  Qed.
  Lemma D_layer x : regs 32 nb x -> regs 32 nb (rj_layer rj_D dx x) /\ cols (rj_layer rj_D dx x) = inv_mix_columns (inv_sub_bytes (inv_shift_rows nb (cols x))).
  Proof.
    intros R. pose proof (shape_pos _ _ _ Sh). rewrite <- (dec_sub_shift x (proj1 R)). unfold inv_mix_columns.
    apply (layer_gen rj_D (mat unmix_m) isb nb dx (fun c r => (c + nb - shift nb r) mod nb)%nat);
      [apply D_col|apply (shift_dx _ _ _ Sh)|intros; apply Nat.mod_upper_bound; lia|exact R].
  Qed.
  Lemma DL_layer x : regs 32 nb x -> regs 32 nb (rj_layer rj_DL dx x) /\ cols (rj_layer rj_DL dx x) = inv_sub_bytes (inv_shift_rows nb (cols x)).
  Proof.
    intros R. pose proof (shape_pos _ _ _ Sh). rewrite <- (dec_sub_shift x (proj1 R)).
    rewrite <- (map_id (map (fun c => map (fun r => cell (map (map isb) (cols x)) r ((c + nb - shift nb r) mod nb)) (seq 0 4)) (seq 0 nb))).
    apply (layer_gen rj_DL (fun c => c) isb nb dx (fun c r => (c + nb - shift nb r) mod nb)%nat);
      [apply DL_col|apply (shift_dx _ _ _ Sh)|intros; apply Nat.mod_upper_bound; lia|exact R].
  Qed.

  (** ** Spec: a state of columns *)
  Definition state (s : list (list N)) : Prop := length s = nb /\ Forall (regs 8 4) s.
  Lemma cols_state x : length x = nb -> state (cols x).
  Proof. intros L. split; [now rewrite map_length|]. apply Forall_forall. intros w Hw. apply in_map_iff in Hw. destruct Hw as (y & <- & _). apply col_regs. Qed.
  Lemma map_state f s : (forall c, regs 8 4 c -> regs 8 4 (f c)) -> state s -> state (map f s).
  Proof.
    intros H [L S]. split; [now rewrite map_length|]. apply Forall_forall. intros w Hw. apply in_map_iff in Hw. destruct Hw as (y & <- & Hy).
    rewrite Forall_forall in S. now apply H, S.
  Qed.
  Lemma cell_bound s r c : state s -> cell s r c < 256.
  Proof.
    intros [L S]. unfold cell. destruct (Nat.lt_ge_cases c (length s)) as [G|G].
    - rewrite Forall_forall in S. apply (regs_nth 8 4). apply S. now apply nth_In.
    - rewrite (nth_overflow s) by exact G. now destruct r.
  Qed.
  Lemma shifted_state (p : nat -> nat -> nat) s : state s -> state (map (fun c => map (fun r => cell s r (p c r)) (seq 0 4)) (seq 0 nb)).
  Proof.
    intros S. split; [now rewrite map_length, seq_length|]. apply Forall_forall. intros w Hw. apply in_map_iff in Hw. destruct Hw as (c & <- & _).
    split; [reflexivity|]. apply Forall_forall. intros v Hv. apply in_map_iff in Hv. destruct Hv as (r & <- & _). now apply cell_bound.
  Qed.
  Lemma bytes_map f c : (forall x, x < 256 -> f x < 256) -> regs 8 4 c -> regs 8 4 (map f c).
  Proof. intros H [L W]. split; [now rewrite map_length|]. apply Forall_map. eapply Forall_impl; [|exact W]. exact H. Qed.
  Lemma map_inv (f g : N -> N) c : (forall x, x < 256 -> g (f x) = x) -> regs 8 4 c -> map g (map f c) = c.
  Proof.
    intros H [_ W]. rewrite map_map. rewrite <- (map_id c) at 2. apply map_ext_in. intros x Hx. unfold words_ok in W. rewrite Forall_forall in W. apply H. now apply W.
  Qed.
  Lemma maps_inv (f g : list N -> list N) s : (forall c, regs 8 4 c -> g (f c) = c) -> state s -> map g (map f s) = s.
  Proof.
    intros H [_ S]. rewrite map_map. rewrite <- (map_id s) at 2. apply map_ext_in. intros x Hx. rewrite Forall_forall in S. now apply H, S.
  Qed.
  Lemma sb_bound x : x < 256 -> sb x < 256. Proof. intros H. exact (proj1 (sboxes x H)). Qed.
  Lemma isb_bound x : x < 256 -> isb x < 256. Proof. intros H. exact (proj1 (proj2 (sboxes x H))). Qed.
  Lemma isb_sb x : x < 256 -> isb (sb x) = x. Proof. intros H. exact (proj1 (proj2 (proj2 (sboxes x H)))). Qed.
  Lemma sb_isb x : x < 256 -> sb (isb x) = x. Proof. intros H. exact (proj2 (proj2 (proj2 (sboxes x H)))). Qed.
  Lemma sub_state s : state s -> state (sub_bytes s).
  Proof. apply map_state. intros c. apply bytes_map. apply sb_bound. Qed.
  Lemma inv_sub_state s : state s -> state (inv_sub_bytes s).
  Proof. apply map_state. intros c. apply bytes_map. apply isb_bound. Qed.
  Lemma inv_sub_sub s : state s -> inv_sub_bytes (sub_bytes s) = s.
  Proof. apply maps_inv. intros c. apply map_inv. apply isb_sb. Qed.
  Lemma sub_inv_sub s : state s -> sub_bytes (inv_sub_bytes s) = s.
  Proof. apply maps_inv. intros c. apply map_inv. apply sb_isb. Qed.
  Lemma mat_regs m c : length m = 4%nat -> regs 8 4 c -> regs 8 4 (mat m c).
  Proof. intros L H. rewrite mat_gmat. apply gmat_regs; [apply poly_aes|exact H|exact L]. Qed.
  Lemma mix_state s : state s -> state (mix_columns s).
  Proof. apply map_state. intros c. now apply mat_regs. Qed.
  Lemma unmix_state s : state s -> state (inv_mix_columns s).
  Proof. apply map_state. intros c. now apply mat_regs. Qed.
  Lemma unmix_mix s : state s -> inv_mix_columns (mix_columns s) = s.
  Proof.
    apply maps_inv. intros c R. rewrite !mat_gmat. apply (gmat_inverse 0x11B mix_m unmix_m 4); [apply poly_aes|reflexivity|reflexivity|vm_compute; reflexivity|exact R].
  Qed.
  Lemma mix_unmix s : state s -> mix_columns (inv_mix_columns s) = s.
  Proof.
    apply maps_inv. intros c R. rewrite !mat_gmat. apply (gmat_inverse 0x11B unmix_m mix_m 4); [apply poly_aes|reflexivity|reflexivity|vm_compute; reflexivity|exact R].
  Qed.
  Lemma shift_state s : state s -> state (shift_rows nb s). Proof. apply shifted_state. Qed.
  Lemma inv_shift_state s : state s -> state (inv_shift_rows nb s). Proof. apply shifted_state. Qed.
  Lemma state_ext s t : state s -> state t -> (forall c r, (c < nb)%nat -> (r < 4)%nat -> cell s r c = cell t r c) -> s = t.
  Proof.
    intros [Ls Ss] [Lt St] H. apply (nth_ext s t [] []); [congruence|]. intros c Hc. rewrite Forall_forall in Ss, St.
    assert (A := Ss (nth c s []) ltac:(apply nth_In; lia)). assert (B := St (nth c t []) ltac:(apply nth_In; lia)). destruct A as [A _], B as [B _].
    apply (nth_ext _ _ 0 0); [congruence|]. intros r Hr. apply H; lia.
  Qed.
  Lemma cell_shifted (p : nat -> nat -> nat) s c r : (c < nb)%nat -> (r < 4)%nat ->
    cell (map (fun c => map (fun r => cell s r (p c r)) (seq 0 4)) (seq 0 nb)) r c = cell s r (p c r).
  Proof.
    intros Hc Hr. unfold cell at 1. rewrite (nth_map_seq _ 0 nb c []) by exact Hc. rewrite (nth_map_seq _ 0 4 r 0) by exact Hr. reflexivity.
  Qed.
  Lemma shift_le r : (r < 4)%nat -> (shift nb r <= nb)%nat.
  Proof. intros Hr. destruct Sh as [(-> & _)|(-> & _)]; destruct r as [|[|[|[|r]]]]; cbn; lia. Qed.
  Lemma inv_shift_shift s : state s -> inv_shift_rows nb (shift_rows nb s) = s.
  Proof.
    intros H. pose proof (shape_pos _ _ _ Sh). apply state_ext; [now apply inv_shift_state, shift_state|exact H|]. intros c r Hc Hr.
    unfold inv_shift_rows. rewrite cell_shifted by assumption. unfold shift_rows. rewrite cell_shifted; [|apply Nat.mod_upper_bound; lia|exact Hr].
    f_equal. rewrite Nat.add_mod_idemp_l by lia. assert (B := shift_le r Hr). replace (c + nb - shift nb r + shift nb r)%nat with (c + 1 * nb)%nat by lia.
    rewrite Nat.mod_add by lia. now apply Nat.mod_small.
  Qed.
  Lemma shift_inv_shift s : state s -> shift_rows nb (inv_shift_rows nb s) = s.
  Proof.
    intros H. pose proof (shape_pos _ _ _ Sh). apply state_ext; [now apply shift_state, inv_shift_state|exact H|]. intros c r Hc Hr.
    unfold shift_rows. rewrite cell_shifted by assumption. unfold inv_shift_rows. rewrite cell_shifted; [|apply Nat.mod_upper_bound; lia|exact Hr].
    f_equal. assert (B := shift_le r Hr). replace ((c + shift nb r) mod nb + nb - shift nb r)%nat with ((c + shift nb r) mod nb + (nb - shift nb r))%nat by lia.
    rewrite Nat.add_mod_idemp_l by lia. replace (c + shift nb r + (nb - shift nb r))%nat with (c + 1 * nb)%nat by lia.
    rewrite Nat.mod_add by lia. now apply Nat.mod_small.
  Qed.
  Lemma ark_state s k : state s -> state k -> state (add_round_key s k).
  Proof.
    intros [Ls Ss] [Lk Sk]. split; [unfold add_round_key; rewrite map_length, combine_length; lia|]. unfold add_round_key. clear Ls Lk.
    revert k Sk. induction Ss as [|a s Ha Hs IH]; intros [|b k] Sk; cbn [combine map fst snd]; try constructor.
    - apply Forall_cons_iff in Sk. rewrite bxor_vxor. apply regs_vxor; [exact Ha|apply Sk].
    - apply IH. now apply Forall_cons_iff in Sk.
  Qed.
  Lemma ark_ark s k : state s -> state k -> add_round_key (add_round_key s k) k = s.
  Proof.
    intros [Ls Ss] [Lk Sk]. assert (L : length s = length k) by congruence. clear Ls Lk. unfold add_round_key.
    revert k L Sk. induction Ss as [|a s Ha Hs IH]; intros [|b k] L Sk; try discriminate L; [reflexivity|]. cbn [combine map fst snd].
    apply Forall_cons_iff in Sk. rewrite !bxor_vxor. rewrite vxor_cancel by (destruct Ha, (proj1 Sk); congruence). f_equal. apply IH; [now injection L|apply Sk].
  Qed.
  Lemma unmix_ark s k : state s -> state k -> inv_mix_columns (add_round_key s k) = add_round_key (inv_mix_columns s) (inv_mix_columns k).
  Proof.
    intros [Ls Ss] [Lk Sk]. clear Ls Lk. unfold add_round_key, inv_mix_columns.
    revert k Sk. induction Ss as [|a s Ha Hs IH]; intros [|b k] Sk; try reflexivity. cbn [combine map fst snd]. apply Forall_cons_iff in Sk.
    rewrite !bxor_vxor, !mat_gmat. rewrite (proj2 (gmat_vlin 0x11B unmix_m 4 poly_aes eq_refl)) by (try exact Ha; apply Sk). f_equal. apply IH. apply Sk.
  Qed.
  (** shift and substitution, forth and back *)
  Lemma back_forth s : state s -> inv_sub_bytes (inv_shift_rows nb (shift_rows nb (sub_bytes s))) = s.
  Proof. intros H. rewrite inv_shift_shift by now apply sub_state. now apply inv_sub_sub. Qed.
  Lemma forth_back s : state s -> shift_rows nb (sub_bytes (inv_sub_bytes (inv_shift_rows nb s))) = s.
  Proof. intros H. rewrite sub_inv_sub by now apply inv_shift_state. now apply shift_inv_shift. Qed.

  Definition keys (nr : nat) (w : list (list N)) : Prop := length w = (nb * (nr + 1))%nat /\ Forall (regs 8 4) w.
  Lemma round_key_state nr w i : keys nr w -> (i <= nr)%nat -> state (round_key nb w i).
  Proof.
    intros [L S] Hi. unfold round_key. split.
    - rewrite firstn_length, skipn_length, L. nia.
    - apply Forall_forall. intros x Hx. rewrite Forall_forall in S. apply S. 
      rewrite <- (firstn_skipn (nb * i) w). apply in_or_app. right.
      rewrite <- (firstn_skipn nb (skipn (nb * i) w)). apply in_or_app. now left.
  Qed.

  Definition enc_step (w : list (list N)) (s : list (list N)) (i : nat) := add_round_key (mix_columns (shift_rows nb (sub_bytes s))) (round_key nb w i).
  Definition dec_step (w : list (list N)) (s : list (list N)) (i : nat) := inv_mix_columns (add_round_key (inv_sub_bytes (inv_shift_rows nb s)) (round_key nb w i)).
  Lemma enc_step_state nr w s i : keys nr w -> (i <= nr)%nat -> state s -> state (enc_step w s i).
  Proof. intros K Hi H. apply ark_state; [now apply mix_state, shift_state, sub_state|now apply (round_key_state nr)]. Qed.
  Lemma dec_step_state nr w s i : keys nr w -> (i <= nr)%nat -> state s -> state (dec_step w s i).
  Proof. intros K Hi H. apply unmix_state, ark_state; [now apply inv_sub_state, inv_shift_state|now apply (round_key_state nr)]. Qed.
  Lemma fold_state (f : list (list N) -> nat -> list (list N)) nr l s : (forall s i, (i <= nr)%nat -> state s -> state (f s i)) -> Forall (fun i => i <= nr)%nat l -> state s ->
    state (fold_left f l s).
  Proof. intros Hf H. revert s. induction H as [|i l Hi Hl IH]; intros s Hs; [exact Hs|]. cbn [fold_left]. apply IH. now apply Hf. Qed.
  Lemma undo_rounds nr w l s : keys nr w -> Forall (fun i => i <= nr)%nat l -> state s ->
    fold_left (dec_step w) (rev l) (shift_rows nb (sub_bytes (fold_left (enc_step w) l s))) = shift_rows nb (sub_bytes s).
  Proof.
    intros K H. revert s. induction H as [|i l Hi Hl IH]; intros s Hs; [reflexivity|]. cbn [rev fold_left].
    rewrite fold_left_app. cbn [fold_left]. rewrite IH by now apply (enc_step_state nr).
    unfold dec_step. rewrite back_forth by now apply (enc_step_state nr). unfold enc_step.
    rewrite ark_ark by (try (now apply mix_state, shift_state, sub_state); now apply (round_key_state nr)).
    apply unmix_mix. now apply shift_state, sub_state.
  Qed.
  Lemma redo_rounds nr w l s : keys nr w -> Forall (fun i => i <= nr)%nat l -> state s ->
    fold_left (enc_step w) l (inv_sub_bytes (inv_shift_rows nb (fold_left (dec_step w) (rev l) s))) = inv_sub_bytes (inv_shift_rows nb s).
  Proof.
    intros K H. revert s. induction H as [|i l Hi Hl IH]; intros s Hs; [reflexivity|]. cbn [rev fold_left].
    rewrite fold_left_app. cbn [fold_left]. set (t := fold_left (dec_step w) (rev l) s).
    assert (T : state t). { apply (fold_state _ nr); [intros; now apply (dec_step_state nr)|now apply Forall_rev|exact Hs]. }
    assert (A : state (inv_sub_bytes (inv_shift_rows nb t))) by now apply inv_sub_state, inv_shift_state.
    assert (R : state (round_key nb w i)) by now apply (round_key_state nr).
    assert (E : enc_step w (inv_sub_bytes (inv_shift_rows nb (dec_step w t i))) i = inv_sub_bytes (inv_shift_rows nb t)).
    { unfold enc_step. rewrite forth_back by now apply (dec_step_state nr). unfold dec_step.
      rewrite mix_unmix by now apply ark_state. now apply ark_ark. }
    rewrite E. subst t. now apply IH.
  Qed.
  Lemma mid_keys nr : Forall (fun i => (i <= nr)%nat) (seq 1 (nr - 1)).
  Proof. apply Forall_forall. intros i Hi. apply in_seq in Hi. lia. Qed.
  Lemma cipher_state nr w s : keys nr w -> state s -> state (cipher nb nr w s).
  Proof.
    intros K H. unfold cipher. apply ark_state; [|now apply (round_key_state nr)]. apply shift_state, sub_state.
    apply (fold_state (enc_step w) nr); [intros; now apply (enc_step_state nr)|apply mid_keys|]. apply ark_state; [exact H|apply (round_key_state nr); [exact K|lia]].
  Qed.
  Lemma inv_cipher_state nr w s : keys nr w -> state s -> state (inv_cipher nb nr w s).
  Proof.
    intros K H. unfold inv_cipher. apply ark_state; [|apply (round_key_state nr); [exact K|lia]]. apply inv_sub_state, inv_shift_state.
    apply (fold_state (dec_step w) nr); [intros; now apply (dec_step_state nr)|apply Forall_rev, mid_keys|]. apply ark_state; [exact H|now apply (round_key_state nr)].
  Qed.
  Lemma decipher nr w s : keys nr w -> state s -> inv_cipher nb nr w (cipher nb nr w s) = s.
  Proof.
    intros K H. assert (K0 : state (round_key nb w 0)) by (apply (round_key_state nr); [exact K|lia]).
    assert (Kn : state (round_key nb w nr)) by now apply (round_key_state nr).
    assert (H0 : state (add_round_key s (round_key nb w 0))) by now apply ark_state.
    unfold inv_cipher, cipher. fold (enc_step w). fold (dec_step w).
    assert (F : state (fold_left (enc_step w) (seq 1 (nr - 1)) (add_round_key s (round_key nb w 0)))).
    { apply (fold_state _ nr); [intros; now apply (enc_step_state nr)|apply mid_keys|exact H0]. }
    rewrite ark_ark by (try exact Kn; now apply shift_state, sub_state).
    change (fun s i => add_round_key (mix_columns (shift_rows nb (sub_bytes s))) (round_key nb w i)) with (enc_step w).
    change (fun s i => inv_mix_columns (add_round_key (inv_sub_bytes (inv_shift_rows nb s)) (round_key nb w i))) with (dec_step w).
    rewrite (undo_rounds nr) by (try assumption; apply mid_keys). rewrite back_forth by exact H0. now apply ark_ark.
  Qed.
  Lemma encipher nr w s : keys nr w -> state s -> cipher nb nr w (inv_cipher nb nr w s) = s.
  Proof.
    intros K H. assert (K0 : state (round_key nb w 0)) by (apply (round_key_state nr); [exact K|lia]).
    assert (Kn : state (round_key nb w nr)) by now apply (round_key_state nr).
    assert (H0 : state (add_round_key s (round_key nb w nr))) by now apply ark_state.
    unfold inv_cipher, cipher.
    change (fun s i => add_round_key (mix_columns (shift_rows nb (sub_bytes s))) (round_key nb w i)) with (enc_step w).
    change (fun s i => inv_mix_columns (add_round_key (inv_sub_bytes (inv_shift_rows nb s)) (round_key nb w i))) with (dec_step w).
    assert (F : state (fold_left (dec_step w) (rev (seq 1 (nr - 1))) (add_round_key s (round_key nb w nr)))).
    { apply (fold_state _ nr); [intros; now apply (dec_step_state nr)|apply Forall_rev, mid_keys|exact H0]. }
    rewrite ark_ark by (try exact K0; now apply inv_sub_state, inv_shift_state).
    rewrite (redo_rounds nr) by (try assumption; apply mid_keys). rewrite forth_back by exact H0. now apply ark_ark.
  Qed.

  (** ** The code *)
  Lemma cols_xors a b : cols (xors a b) = add_round_key (cols a) (cols b).
  Proof.
    unfold xors, add_round_key. revert b. induction a as [|x a IH]; intros [|y b]; try reflexivity. cbn [combine map fst snd].
    rewrite bxor_vxor, col_lxor. f_equal. apply IH.
  Qed.
  Lemma xors_regs a b n : regs 32 n a -> regs 32 n b -> regs 32 n (xors a b).
  Proof.
    intros [La Wa] [Lb Wb]. split; [unfold xors; rewrite map_length, combine_length; lia|]. unfold xors. clear La Lb.
    revert b Wb. induction Wa as [|x a Hx Wa IH]; intros [|y b] Wb; cbn [combine map fst snd]; try constructor.
    - apply Forall_cons_iff in Wb. destruct Wb. wb.
    - apply IH. now apply Forall_cons_iff in Wb.
  Qed.
  Lemma reads_key nr k i : regs 32 (nb * (nr + 1)) k -> (i <= nr)%nat ->
    exists ki, reads k (nb * i) nb = Ok ki /\ regs 32 nb ki /\ cols ki = round_key nb (cols k) i.
  Proof.
    intros [L W] Hi. unfold reads. destruct (Nat.leb_spec (nb * i + nb) (length k)) as [G|G]; [|exfalso; nia].
    exists (firstn nb (skipn (nb * i) k)). split; [reflexivity|]. split.
    - split; [rewrite firstn_length, skipn_length; lia|]. now apply words_firstn, words_skipn.
    - unfold round_key. now rewrite skipn_map, firstn_map.
  Qed.
  Lemma loop_cols nr k (f : N -> N -> N -> N -> N) jx (g : list (list N) -> list (list N)) n lo x :
    regs 32 (nb * (nr + 1)) k -> (forall x, regs 32 nb x -> regs 32 nb (rj_layer f jx x) /\ cols (rj_layer f jx x) = g (cols x)) ->
    (lo + n <= S nr)%nat -> regs 32 nb x ->
    exists y, mfor n lo (fun i x => let* ki := reads k (nb * i) nb in Ok (xors (rj_layer f jx x) ki)) x = Ok y /\ regs 32 nb y /\
      cols y = fold_left (fun s i => add_round_key (g s) (round_key nb (cols k) i)) (seq lo n) (cols x).
  Proof.
    intros K Hg. revert lo x. induction n as [|n IH]; intros lo x Hn Hx; cbn [mfor seq fold_left].
    - exists x. split; [reflexivity|]. split; [exact Hx|reflexivity].
    - destruct (reads_key nr k lo K ltac:(lia)) as (ki & E & Rk & Ek). rewrite E. cbn [bind].
      destruct (Hg x Hx) as [R C].
      destruct (IH (S lo) (xors (rj_layer f jx x) ki) ltac:(lia) (xors_regs _ _ _ R Rk)) as (y & Ey & Ry & Cy).
      exists y. split; [exact Ey|]. split; [exact Ry|]. rewrite Cy, cols_xors, C, Ek. reflexivity.
  Qed.
  Lemma crypt_cols r k (f fl : N -> N -> N -> N -> N) jx (g gl : list (list N) -> list (list N)) inp :
    let nr := N.to_nat r in (1 <= nr)%nat -> regs 32 (nb * (nr + 1)) k ->
    (forall x, regs 32 nb x -> regs 32 nb (rj_layer f jx x) /\ cols (rj_layer f jx x) = g (cols x)) ->
    (forall x, regs 32 nb x -> regs 32 nb (rj_layer fl jx x) /\ cols (rj_layer fl jx x) = gl (cols x)) ->
    blk (4 * nb) inp ->
    rj_crypt nb f fl jx r k inp = Ok (concat (add_round_key (gl
      (fold_left (fun s i => add_round_key (g s) (round_key nb (cols k) i)) (seq 1 (nr - 1)) (add_round_key (columns nb inp) (round_key nb (cols k) 0)))) (round_key nb (cols k) nr))).
  Proof.
    intros nr Hr K Hf Hl [Li Bi]. unfold rj_crypt. fold nr.
    destruct (reads_key nr k 0 K ltac:(lia)) as (k0 & E0 & R0 & C0). rewrite Nat.mul_0_r in E0. rewrite E0. cbn [bind].
    assert (RL : regs 32 nb (loads load32b 4 nb inp)).
    { split; [apply (length_loads)|]. apply (words_loads codec32b). exact Bi. }
    assert (CL : cols (loads load32b 4 nb inp) = columns nb inp).
    { unfold loads, columns. rewrite map_map. apply map_ext_in. intros c Hc. apply in_seq in Hc.
      rewrite <- store32b_bytes. replace (4 * c)%nat with (c * 4)%nat by lia. 
      pose proof (c_stld _ _ _ _ codec32b inp (4 * c) Bi ltac:(lia)) as Q. first [exact Q | (rewrite (Nat.mul_comm c 4); exact Q)]. }
    destruct (loop_cols nr k f jx g (nr - 1) 1 _ K Hf ltac:(lia) (xors_regs _ _ _ RL R0)) as (y & Ey & Ry & Cy). rewrite Ey. cbn [bind].
    replace (Nat.max 1 nr) with nr by lia.
    destruct (reads_key nr k nr K ltac:(lia)) as (kn & En & Rn & Cn). rewrite En. cbn [bind]. f_equal.
    rewrite stores32b_be. unfold be_string. rewrite flat_map_concat_map. f_equal. rewrite cols_xors, (proj2 (Hl y Ry)), Cy, cols_xors, CL, C0, Cn. reflexivity.
  Qed.
  Lemma encrypt_cipher r k inp : let nr := N.to_nat r in (1 <= nr)%nat -> regs 32 (nb * (nr + 1)) k -> blk (4 * nb) inp ->
    rj_crypt nb rj_E rj_EL ix r k inp = Ok (concat (cipher nb nr (cols k) (columns nb inp))).
  Proof. intros nr Hr K B. exact (crypt_cols r k rj_E rj_EL ix (fun s => mix_columns (shift_rows nb (sub_bytes s))) (fun s => shift_rows nb (sub_bytes s)) inp Hr K E_layer EL_layer B). Qed.

  (** [dk] holds the round keys in the opposite order, the middle ones multiplied with the inverse matrix *)
  Definition dec_keys (nr : nat) (k dk : list N) : Prop :=
    forall i, (i <= nr)%nat -> round_key nb (cols dk) i =
      if (i =? 0)%nat || (i =? nr)%nat then round_key nb (cols k) (nr - i) else inv_mix_columns (round_key nb (cols k) (nr - i)).
  Lemma rev_seq r : rev (seq 1 (r - 1)) = map (fun i => (r - i)%nat) (seq 1 (r - 1)).
  Proof.
    destruct r as [|n]; [reflexivity|]. replace (S n - 1)%nat with n by lia. 
    apply (nth_ext _ _ 0%nat 0%nat); [now rewrite rev_length, map_length|]. intros i Hi. rewrite rev_length, seq_length in Hi.
    rewrite rev_nth by (rewrite seq_length; exact Hi). rewrite seq_length, seq_nth by lia. rewrite nth_map_seq by exact Hi. lia.
  Qed.
  Lemma fold_map {A B C} (f : A -> C -> A) (g : B -> C) l a : fold_left f (map g l) a = fold_left (fun a b => f a (g b)) l a.
  Proof. revert a. induction l as [|b l IH]; intros a; [reflexivity|]. cbn [map fold_left]. apply IH. Qed.
  Lemma fold_ext_state (f g : list (list N) -> nat -> list (list N)) l s : (forall s i, In i l -> state s -> f s i = g s i /\ state (g s i)) -> state s ->
    fold_left f l s = fold_left g l s.
  Proof.
    revert s. induction l as [|i l IH]; intros s H Hs; [reflexivity|]. cbn [fold_left]. destruct (H s i (or_introl eq_refl) Hs) as [-> G].
    apply IH; [|exact G]. intros t j Hj. apply H. now right.
  Qed.
  Lemma keys_cols nr k : regs 32 (nb * (nr + 1)) k -> keys nr (cols k).
  Proof. intros [L W]. split; [now rewrite map_length|]. apply Forall_forall. intros x Hx. apply in_map_iff in Hx. destruct Hx as (y & <- & _). apply col_regs. Qed.
  Lemma columns_state inp : blk (4 * nb) inp -> state (columns nb inp).
  Proof.
    intros [L B]. split; [unfold columns; now rewrite map_length, seq_length|]. apply Forall_forall. intros x Hx. apply in_map_iff in Hx.
    destruct Hx as (c & <- & Hc). apply in_seq in Hc. split; [rewrite length_slice; lia|]. now apply (words_slice 8).
  Qed.
  Lemma decrypt_cipher r k dk inp : let nr := N.to_nat r in (1 <= nr)%nat -> regs 32 (nb * (nr + 1)) k -> regs 32 (nb * (nr + 1)) dk -> dec_keys nr k dk -> blk (4 * nb) inp ->
    rj_crypt nb rj_D rj_DL dx r dk inp = Ok (concat (inv_cipher nb nr (cols k) (columns nb inp))).
  Proof.
    intros nr Hr K DK Q B. rewrite (crypt_cols r dk rj_D rj_DL dx (fun s => inv_mix_columns (inv_sub_bytes (inv_shift_rows nb s))) (fun s => inv_sub_bytes (inv_shift_rows nb s)) inp Hr DK D_layer DL_layer B). fold nr. unfold inv_cipher. f_equal. f_equal.
    rewrite (Q 0%nat), (Q nr) by lia. cbn [Nat.eqb orb]. rewrite Nat.eqb_refl, orb_true_r, Nat.sub_0_r, Nat.sub_diag.
    f_equal. f_equal. f_equal. rewrite rev_seq, fold_map. pose proof (keys_cols nr k K) as KK. apply fold_ext_state.
    - intros s i Hi Hs. apply in_seq in Hi. rewrite (Q i) by lia.
      replace (i =? 0)%nat with false by (symmetry; apply Nat.eqb_neq; lia). replace (i =? nr)%nat with false by (symmetry; apply Nat.eqb_neq; lia).
      cbn [orb]. assert (A : state (inv_sub_bytes (inv_shift_rows nb s))) by now apply inv_sub_state, inv_shift_state.
      assert (R : state (round_key nb (cols k) (nr - i))) by (apply (round_key_state nr); [exact KK|lia]).
      split; [now rewrite unmix_ark|]. now apply unmix_state, ark_state.
    - apply ark_state; [now apply columns_state|]. apply (round_key_state nr); [exact KK|lia].
  Qed.

  Lemma concat_blk s : state s -> blk (4 * nb) (concat s).
  Proof.
    intros [L S]. subst nb. split.
    - clear Sh. induction S as [|c s [Lc _] Hs IH]; [reflexivity|]. cbn [concat length]. rewrite app_length, IH, Lc. lia.
    - clear Sh. induction S as [|c s [_ Wc] Hs IH]; [constructor|]. cbn [concat]. apply Forall_app. split; [exact Wc|exact IH].
  Qed.
  Lemma columns_concat s : state s -> columns nb (concat s) = s.
  Proof.
    intros [L S]. unfold columns. rewrite <- L. clear L. induction S as [|c s [Lc Wc] Hs IH]; [reflexivity|].
    cbn [length seq map concat]. f_equal.
    - unfold slice. rewrite Nat.mul_0_r. cbn [skipn]. rewrite firstn_app, Lc, Nat.sub_diag, firstn_O, app_nil_r. apply firstn_all2. lia.
    - rewrite <- IH at 2. rewrite <- seq_shift, map_map. apply map_ext. intros i. unfold slice. f_equal. rewrite skipn_app, Lc.
      rewrite skipn_all2 by lia. rewrite app_nil_l. f_equal. lia.
  Qed.
  Lemma concat_columns inp : blk (4 * nb) inp -> concat (columns nb inp) = inp.
  Proof.
    intros [L _]. unfold columns. clear Sh. revert inp L. generalize nb as n. induction n as [|n IH]; intros inp L; [destruct inp; [reflexivity|discriminate L]|].
    cbn [seq map concat]. rewrite <- seq_shift, map_map. transitivity (firstn 4 inp ++ skipn 4 inp); [|apply firstn_skipn]. apply f_equal2; [reflexivity|].
    rewrite <- (IH (skipn 4 inp)) by (rewrite skipn_length; lia). apply f_equal. apply map_ext. intros c. unfold slice. f_equal. rewrite skipn_skipn. f_equal. lia.
  Qed.
  Lemma crypt_perm r k dk : let nr := N.to_nat r in (1 <= nr)%nat -> regs 32 (nb * (nr + 1)) k -> regs 32 (nb * (nr + 1)) dk -> dec_keys nr k dk ->
    permutation (4 * nb) (rj_crypt nb rj_E rj_EL ix r k) (rj_crypt nb rj_D rj_DL dx r dk).
  Proof.
    intros nr Hr K DK Q. pose proof (keys_cols nr k K) as KK. split.
    - intros pt L B. assert (Bp : blk (4 * nb) pt) by now split. assert (S := cipher_state nr _ _ KK (columns_state pt Bp)). assert (C := concat_blk _ S).
      exists (concat (cipher nb nr (cols k) (columns nb pt))). split; [now apply encrypt_cipher|]. split; [apply C|]. split; [apply C|].
      rewrite (decrypt_cipher r k dk _ Hr K DK Q C). fold nr. rewrite columns_concat by exact S. rewrite decipher by (try exact KK; now apply columns_state).
      now rewrite concat_columns.
    - intros ct L B. assert (Bp : blk (4 * nb) ct) by now split. assert (S := inv_cipher_state nr _ _ KK (columns_state ct Bp)). assert (C := concat_blk _ S).
      exists (concat (inv_cipher nb nr (cols k) (columns nb ct))). split; [now apply decrypt_cipher|]. split; [apply C|]. split; [apply C|].
      rewrite (encrypt_cipher r k _ Hr K C). fold nr. rewrite columns_concat by exact S. rewrite encipher by (try exact KK; now apply columns_state).
      now rewrite concat_columns.
  Qed.
End Sh.
