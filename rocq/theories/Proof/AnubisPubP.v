(** Anubis is the published cipher. *)
From Coq Require Import NArith Arith List Bool Lia.
From Verif Require Import Lib.Word Lib.Res Lib.Bytes Lib.Bits Lib.Bij Lib.Lists Lib.BlockLemmas Lib.Lin Lib.Spn Lib.GfP Lib.WordSpec Lib.WordsP Lib.XorBytes
  Spec.Words Spec.Block Spec.Arx Spec.Gf Spec.Affine Spec.Pub3 Spec.Rounds Model.LoadStore Model.BlockApi Model.Table Model.Anubis Model.Ciphers
  Proof.LoadStoreP Proof.Sha1P Proof.ArxP Proof.PubLib Proof.TableP Proof.AnubisP Proof.RekeyP Proof.CiphersP Proof.ColumnsP Proof.KhazadPubP.
Import ListNotations.
Local Open Scope N_scope.

Notation rows := (map (be_bytes 4)).

Lemma be4_bytes a b c d : a < 256 -> b < 256 -> c < 256 -> d < 256 -> be_bytes 4 (be_val [a; b; c; d]) = [a; b; c; d].
Proof. intros. apply (be_bytes_val [a; b; c; d]). repeat constructor; assumption. Qed.
Lemma anu_sb_pub b : b < 256 -> anu_sb b = khazad_S b.
Proof. intros Hb. apply N.eqb_eq. apply (bytes_check (fun b => anu_sb b =? khazad_S b)); [vm_compute; reflexivity|exact Hb]. Qed.
Lemma khazad_S_lt b : b < 256 -> khazad_S b < 256.
Proof. intros Hb. rewrite <- anu_sb_pub by exact Hb. now apply anu_sb_bound. Qed.

Lemma anu_lw_check : forallb (fun i => mixw 4 [anu_col_ 0; anu_col_ 1; anu_col_ 2; anu_col_ 3] (2 ^ N.of_nat i) =?
  be_val (gf_mat khazad_poly (hadamard [1; 2; 4; 6]) (be_bytes 4 (2 ^ N.of_nat i)))) (seq 0 32) = true.
Proof. vm_compute. reflexivity. Qed.
Lemma anu_lw_pub x : inw 32 x -> be_bytes 4 (anu_lw x) = gf_mat khazad_poly (hadamard [1; 2; 4; 6]) (be_bytes 4 x).
Proof. exact (mat_words 4 32 khazad_poly (hadamard [1; 2; 4; 6]) [anu_col_ 0; anu_col_ 1; anu_col_ 2; anu_col_ 3] khazad_poly8 eq_refl eq_refl anu_lw_check x). Qed.
Lemma anu_theta x : words_ok 32 x -> rows (map anu_lw x) = anubis_theta (rows x).
Proof.
  intros H. unfold anubis_theta. rewrite !map_map. apply map_ext_in. intros a Ha. apply anu_lw_pub.
  unfold words_ok in H. rewrite Forall_forall in H. now apply H.
Qed.
Lemma anu_sigma a : forall b, rows (vxor a b) = anubis_sigma (rows b) (rows a).
Proof.
  unfold anubis_sigma. induction a as [|x a IH]; intros [|y b]; cbn [vxor map combine]; try reflexivity. cbn [fst snd].
  now rewrite IH, be_bytes_lxor, xor_list_vxor.
Qed.
Lemma anu_sc_bytes sh x : be_bytes 4 (anu_sc sh x) = map (fun i => khazad_S (byte (wshr (nth i x 0) sh))) (seq 0 4).
Proof.
  unfold anu_sc. rewrite be4_bytes by (apply anu_sb_bound, byte_lt). cbn [map seq]. now rewrite !anu_sb_pub by apply byte_lt.
Qed.
Lemma anu_sub_pub x : length x = 4%nat -> rows (anu_sub x) = anubis_tau (anubis_gamma (rows x)).
Proof.
  intros L. do 4 (destruct x as [|? x]; [discriminate L|]). destruct x; [|discriminate L]. clear L.
  unfold anu_sub. cbn [map]. rewrite !anu_sc_bytes, !be4. cbn [map seq nth]. unfold anubis_gamma. cbn [map].
  assert (W0 : forall x, wshr x 0 = x) by (intros x; apply N.shiftr_0_r). rewrite !W0.
  unfold anubis_tau, entry. cbn [map seq nth]. exact eq_refl.
Qed.

(** ** The keys *)
Lemma anu_ks_check : forallb (fun b => (tab8 anu_ks1 b =? gf_mul khazad_poly 2 b) && (tab8 anu_ks2 b =? gf_mul khazad_poly 6 b) && (tab8 anu_ks3 b =? gf_mul khazad_poly 8 b)
  && (tab8 anu_ks0 b =? be_val [khazad_S b; khazad_S b; khazad_S b; khazad_S b])) bytesN = true.
Proof. vm_compute. reflexivity. Qed.
Lemma anu_ks b : tab8 anu_ks1 b = gf_mul khazad_poly 2 (byte b) /\ tab8 anu_ks2 b = gf_mul khazad_poly 6 (byte b) /\ tab8 anu_ks3 b = gf_mul khazad_poly 8 (byte b) /\
  be_bytes 4 (tab8 anu_ks0 b) = repeat (khazad_S (byte b)) 4.
Proof.
  pose proof (bytes_check _ _ anu_ks_check (byte_lt b)) as H. cbv beta in H. rewrite !andb_true_iff in H. destruct H as [[[H1 H2] H3] H4].
  assert (T : forall t, tab8 t (byte b) = tab8 t b) by (intros t; unfold tab8; now rewrite byte_byte).
  rewrite !T in *. apply N.eqb_eq in H1, H2, H3, H4. repeat split; try assumption. rewrite H4.
  apply be4_bytes; apply khazad_S_lt, byte_lt.
Qed.
Lemma anu_mix_pub t : inw 32 t -> be_bytes 4 (anu_mix t) =
  [gf_mul khazad_poly 1 (byte (wshr t 24)); gf_mul khazad_poly 2 (byte (wshr t 16)); gf_mul khazad_poly 6 (byte (wshr t 8)); gf_mul khazad_poly 8 (byte t)].
Proof.
  intros Ht. rewrite <- be4_bytes by (apply gf_mul_bound; [exact khazad_poly8|apply byte_lt]). f_equal. unfold anu_mix.
  destruct (anu_ks (wshr t 16)) as (-> & _). destruct (anu_ks (wshr t 8)) as (_ & -> & _). destruct (anu_ks t) as (_ & _ & -> & _).
  assert (M : forall c b, gf_mul khazad_poly c (byte b) < 256) by (intros; apply gf_mul_bound; [exact khazad_poly8|apply byte_lt]).
  rewrite !be_val_cons_lor by (repeat (constructor; [apply M|]); constructor). change (be_val []) with 0. rewrite N.lor_0_r. cbn [length].
  assert (S : forall v n, v < 256 -> n <= 24 -> wshl 32 v n = N.shiftl v n).
  { intros v n Hv Hn. unfold wshl. apply mask_id. unfold inw. rewrite N.shiftl_mul_pow2. apply N.lt_le_trans with (2 ^ 8 * 2 ^ n).
    - apply N.mul_lt_mono_pos_r; [apply N.neq_0_lt_0, N.pow_nonzero; discriminate|exact Hv].
    - rewrite <- N.pow_add_r. apply N.pow_le_mono_r; [discriminate|lia]. }
  rewrite !S by (try apply M; lia). change (8 * N.of_nat 3) with 24. change (8 * N.of_nat 2) with 16. change (8 * N.of_nat 1) with 8. change (8 * N.of_nat 0) with 0.
  rewrite N.shiftl_0_r. change (gf_mul khazad_poly 1 (byte (wshr t 24))) with (byte (wshr t 24)).
  assert (E : N.land t 0xFF000000 = N.shiftl (byte (wshr t 24)) 24).
  { apply N.bits_inj. intros i. change 0xFF000000 with (N.shiftl 255 24). rewrite N.land_spec. unfold byte, mask, wshr.
    destruct (N.lt_ge_cases i 24) as [L|L]; [now rewrite !N.shiftl_spec_low, andb_false_r|].
    rewrite !N.shiftl_spec_high' by exact L. rewrite N.land_spec, N.shiftr_spec'. replace (i - 24 + 24) with i by lia. reflexivity. }
  rewrite E, !N.lor_assoc. reflexivity.
Qed.

Definition hor (v : N) (l : list N) (t : N) : N := fold_right (fun a t => N.lxor a (gf_mul khazad_poly v t)) t l.
Lemma hor_pow_check : forallb (fun v => forallb (fun j => forallb (fun b =>
  gf_mul khazad_poly (gf_pow khazad_poly v (N.of_nat (S j))) b =? gf_mul khazad_poly v (gf_mul khazad_poly (gf_pow khazad_poly v (N.of_nat j)) b)) bytesN) (seq 0 9)) [1; 2; 6; 8] = true.
Proof. vm_compute. reflexivity. Qed.
Definition prow (v : N) (k n : nat) : list N := map (fun i => gf_pow khazad_poly v (N.of_nat i)) (seq k n).
Lemma gf_row_cons p a row x c : gf_row p (a :: row) (x :: c) = N.lxor (gf_mul p a x) (gf_row p row c).
Proof. exact (gdot_cons p a row x c). Qed.
Lemma gf_row_bound p row c : poly8 p -> bytes_ok c -> gf_row p row c < 256.
Proof. exact (gdot_bound p row c). Qed.
Lemma hor_row v l : In v [1; 2; 6; 8] -> bytes_ok l -> forall k n, n = length l -> (k + n <= 9)%nat ->
  gf_row khazad_poly (prow v (S k) n) l = gf_mul khazad_poly v (gf_row khazad_poly (prow v k n) l).
Proof.
  intros Hv Hl. induction Hl as [|b l Hb Hl IH]; intros k n -> Hk.
  - unfold prow, gf_row. cbn [length seq map combine fold_left]. cbn [In] in Hv. destruct Hv as [<-|[<-|[<-|[<-|[]]]]]; reflexivity.
  - cbn [length] in *. unfold prow. cbn [seq map]. rewrite !gf_row_cons. fold (prow v (S (S k)) (length l)). fold (prow v (S k) (length l)).
    rewrite IH by lia. rewrite gf_mul_lxor; [|exact khazad_poly8|now apply gf_mul_bound; [exact khazad_poly8|]|apply gf_row_bound; [exact khazad_poly8|exact Hl]].
    f_equal. pose proof hor_pow_check as C. rewrite forallb_forall in C. specialize (C v Hv). rewrite forallb_forall in C.
    specialize (C k ltac:(apply in_seq; lia)). apply N.eqb_eq. exact (bytes_check _ b C Hb).
Qed.
Lemma hor_pub v l : In v [1; 2; 6; 8] -> bytes_ok l -> (length l <= 10)%nat -> hor v l 0 = gf_row khazad_poly (prow v 0 (length l)) l.
Proof.
  intros Hv Hl. induction Hl as [|b l Hb Hl IH]; intros L; [reflexivity|]. cbn [length] in *. unfold hor. cbn [fold_right]. fold (hor v l 0).
  rewrite IH by lia. unfold prow. cbn [seq map]. rewrite gf_row_cons. change (gf_pow khazad_poly v (N.of_nat 0)) with 1. f_equal.
  symmetry. apply (hor_row v l Hv Hl 0); [reflexivity|lia].
Qed.
Section Col.
Context (sh : N) (kx : list N).
Let L : list N := map (fun w => khazad_S (byte (wshr w sh))) kx.
Let F : nat -> N -> N := fun i t => N.lxor (tab8 anu_ks0 (wshr (nth i kx 0) sh)) (anu_mix t).
Lemma anu_col_step i t : inw 32 t -> be_bytes 4 (F i t) = let s := khazad_S (byte (wshr (nth i kx 0) sh)) in
  [N.lxor s (gf_mul khazad_poly 1 (byte (wshr t 24))); N.lxor s (gf_mul khazad_poly 2 (byte (wshr t 16)));
   N.lxor s (gf_mul khazad_poly 6 (byte (wshr t 8))); N.lxor s (gf_mul khazad_poly 8 (byte t))].
Proof.
  intros Ht. unfold F. rewrite be_bytes_lxor. destruct (anu_ks (wshr (nth i kx 0) sh)) as (_ & _ & _ & ->). rewrite anu_mix_pub by exact Ht. reflexivity.
Qed.
Lemma anu_col_F k : (k <= length kx)%nat -> forall t t0 t1 t2 t3, inw 32 t -> be_bytes 4 t = [t0; t1; t2; t3] ->
  be_bytes 4 (pford k F t) = [hor 1 (firstn k L) t0; hor 2 (firstn k L) t1; hor 6 (firstn k L) t2; hor 8 (firstn k L) t3].
Proof.
  induction k as [|k IH]; intros Hk t t0 t1 t2 t3 Ht E; [exact E|]. cbn [pford].
  assert (T : inw 32 (F k t)) by (apply inw_lxor; [apply anu_ks0_inw|now apply anu_mix_inw]).
  rewrite (IH ltac:(lia) _ _ _ _ _ T (anu_col_step k t Ht)).
  assert (S : firstn (S k) L = firstn k L ++ [khazad_S (byte (wshr (nth k kx 0) sh))]).
  { assert (G : forall l, (k < length l)%nat -> firstn (S k) l = firstn k l ++ [nth k l 0]).
    { clear. induction k as [|k IH]; intros [|a l] H; cbn [length] in H; try lia; [reflexivity|]. cbn [firstn nth app]. f_equal. apply IH. lia. }
    rewrite G by (unfold L; rewrite map_length; lia). do 2 f_equal. unfold L.
    rewrite (nth_indep _ 0 (khazad_S (byte (wshr 0 sh)))) by (rewrite map_length; lia).
    exact (map_nth (fun w => khazad_S (byte (wshr w sh))) kx 0 k). }
  rewrite S. unfold hor. rewrite !fold_right_app. cbn [fold_right].
  rewrite be4 in E. injection E as -> -> -> ->. exact eq_refl.
Qed.
Lemma anu_col_pub : (0 < length kx <= 10)%nat -> be_bytes 4 (anu_col sh kx) =
  map (fun v => gf_row khazad_poly (prow v 0 (length kx)) L) [1; 2; 6; 8].
Proof.
  intros Hl. unfold anu_col. fold F. set (n := (length kx - 1)%nat).
  destruct (anu_ks (wshr (nth n kx 0) sh)) as (_ & _ & _ & E). cbn [repeat] in E.
  rewrite (anu_col_F n ltac:(lia) _ _ _ _ _ (anu_ks0_inw _) E).
  assert (BL : bytes_ok L) by (apply Forall_forall; intros x Hx; apply in_map_iff in Hx; destruct Hx as (w & <- & _); apply khazad_S_lt, byte_lt).
  assert (LL : length L = length kx) by apply map_length.
  assert (S : L = firstn n L ++ [khazad_S (byte (wshr (nth n kx 0) sh))]).
  { rewrite <- (firstn_skipn n L) at 1. f_equal.
    assert (G : forall l : list N, length l = S n -> skipn n l = [nth n l 0]).
    { clear. induction n as [|n IH]; intros [|a l] H; try discriminate H; [destruct l; [reflexivity|discriminate H]|]. cbn [skipn nth]. apply IH. now injection H. }
    rewrite G by lia. f_equal. unfold L. rewrite (nth_indep _ 0 (khazad_S (byte (wshr 0 sh)))) by (rewrite map_length; lia).
    exact (map_nth (fun w => khazad_S (byte (wshr w sh))) kx 0 n). }
  assert (H : forall v, In v [1; 2; 6; 8] -> hor v (firstn n L) (khazad_S (byte (wshr (nth n kx 0) sh))) = gf_row khazad_poly (prow v 0 (length kx)) L).
  { intros v Hv. rewrite <- LL. rewrite <- hor_pub by (auto; lia). rewrite S at 2. unfold hor. rewrite fold_right_app. cbn [fold_right]. f_equal.
    assert (Z : gf_mul khazad_poly v 0 = 0) by (cbn [In] in Hv; destruct Hv as [<-|[<-|[<-|[<-|[]]]]]; reflexivity). now rewrite Z, N.lxor_0_r. }
  cbn [map]. rewrite !H by (cbn [In]; auto). reflexivity.
Qed.
End Col.

Lemma anu_rkey_pub kx : (0 < length kx <= 10)%nat -> rows (anu_rkey kx) = anubis_tau (anubis_omega (anubis_gamma (rows kx))).
Proof.
  intros Hl. unfold anu_rkey. cbn [map]. rewrite !anu_col_pub by exact Hl.
  assert (C : forall j sh, (forall x, byte (wshr x sh) = nth j (be_bytes 4 x) 0) -> (j < 4)%nat ->
    map (fun row => nth j row 0) (anubis_gamma (rows kx)) = map (fun w => khazad_S (byte (wshr w sh))) kx).
  { intros j sh H Hj. unfold anubis_gamma. rewrite !map_map. apply map_ext. intros x. rewrite H.
    rewrite (nth_indep _ 0 (khazad_S 0)) by (rewrite map_length, length_be_bytes; exact Hj). apply map_nth. }
  assert (W0 : forall x, wshr x 0 = x) by (intros x; apply N.shiftr_0_r).
  unfold anubis_omega. assert (LG : length (anubis_gamma (rows kx)) = length kx) by (unfold anubis_gamma; now rewrite !map_length). rewrite LG.
  cbn [map seq].
  rewrite (C 0%nat 24), (C 1%nat 16), (C 2%nat 8), (C 3%nat 0) by (try lia; intros x; rewrite be4; cbn [nth]; now rewrite ?W0).
  unfold anubis_tau, entry. cbn [map seq nth]. exact eq_refl.
Qed.

Lemma anu_rc_check : forallb (fun r => forallb (fun p => fst p =? snd p) (combine (be_bytes 4 (nth r anu_rc 0)) (map (fun j => khazad_S (N.of_nat (4 * r + j))) (seq 0 4)))) (seq 0 64) = true.
Proof. vm_compute. reflexivity. Qed.
Lemma anu_rc_pub r : (r < 64)%nat -> be_bytes 4 (nth r anu_rc 0) = map (fun j => khazad_S (N.of_nat (4 * (S r - 1) + j))) (seq 0 4).
Proof.
  intros Hr. replace (S r - 1)%nat with r by lia. pose proof anu_rc_check as H. rewrite forallb_forall in H. apply eqb_list.
  - now rewrite length_be_bytes, map_length, seq_length.
  - apply H, in_seq. lia.
Qed.
Lemma anu_entry kx i j : (i < length kx)%nat -> (j < 4)%nat -> entry (anubis_gamma (rows kx)) i j = khazad_S (nth j (be_bytes 4 (nth i kx 0)) 0).
Proof.
  intros Hi Hj. unfold entry, anubis_gamma. rewrite map_map.
  rewrite (nth_indep _ [] (map khazad_S (be_bytes 4 0))) by (rewrite map_length; exact Hi).
  rewrite (map_nth (fun x => map khazad_S (be_bytes 4 x)) kx 0 i).
  rewrite (nth_indep _ 0 (khazad_S 0)) by (rewrite map_length, length_be_bytes; exact Hj). apply map_nth.
Qed.
Definition anu_step (kx : list N) (i : nat) : N :=
  let n := length kx in
  N.lxor (N.lxor (N.lxor (tab8 anu_s0 (wshr (nth i kx 0) 24)) (tab8 anu_s1 (wshr (nth ((i + 3 * n - 1) mod n) kx 0) 16)))
      (tab8 anu_s2 (wshr (nth ((i + 3 * n - 2) mod n) kx 0) 8))) (tab8 anu_s3 (nth ((i + 3 * n - 3) mod n) kx 0)).
Lemma anu_step_pub kx i : (i < length kx)%nat -> be_bytes 4 (anu_step kx i) =
  gf_mat khazad_poly (hadamard [1; 2; 4; 6]) (map (fun j => entry (anubis_gamma (rows kx)) ((i + 3 * length kx - j) mod length kx) j) (seq 0 4)).
Proof.
  intros Hi. unfold anu_step. cbv zeta. set (n := length kx) in *.
  assert (M : forall x, (x mod n < n)%nat) by (intros x; apply Nat.mod_upper_bound; lia).
  cbn [map seq]. rewrite !anu_entry by (try apply M; lia).
  replace ((i + 3 * n - 0) mod n)%nat with i by (rewrite Nat.sub_0_r, Nat.mod_add by lia; symmetry; apply Nat.mod_small; lia).
  generalize (nth i kx 0) as w0, (nth ((i + 3 * n - 1) mod n) kx 0) as w1, (nth ((i + 3 * n - 2) mod n) kx 0) as w2, (nth ((i + 3 * n - 3) mod n) kx 0) as w3.
  intros w0 w1 w2 w3.
  rewrite (tab4_lin anu_s0 anu_s1 anu_s2 anu_s3 (anu_col_ 0) (anu_col_ 1) (anu_col_ 2) (anu_col_ 3) anu_sb anu_sb anu_sb anu_sb
    anu_sb_bound anu_sb_bound anu_sb_bound anu_sb_bound _ _ _ _ anu_lins).
  fold (anu_lw (be_val [anu_sb (byte (wshr w0 24)); anu_sb (byte (wshr w1 16)); anu_sb (byte (wshr w2 8)); anu_sb (byte w3)])).
  rewrite anu_lw_pub by (apply be4_inw; apply anu_sb_bound, byte_lt). rewrite be4_bytes by (apply anu_sb_bound, byte_lt).
  rewrite !anu_sb_pub by apply byte_lt. rewrite !be4. cbn [nth]. exact eq_refl.
Qed.
Lemma zip_zeros f m : (forall i, length (f i : list N) = 4%nat) -> forall a,
  map (fun p => xor_list (snd p) (fst p)) (combine (repeat [0; 0; 0; 0] m) (map f (seq a m))) = map f (seq a m).
Proof.
  intros H. induction m as [|m IH]; intros a; [reflexivity|]. cbn [repeat seq map combine fst snd]. rewrite IH. f_equal.
  rewrite xor_list_vxor. exact (vxor_0_r (f a) 4 (H a)).
Qed.
Lemma anu_next_pub kx r : (0 < length kx)%nat -> (r < 64)%nat -> rows (anu_next kx (nth r anu_rc 0)) = anubis_kappa (rows kx) (S r).
Proof.
  intros Hn Hr. unfold anu_next, anubis_kappa. cbv zeta. rewrite map_length. set (n := length kx) in *.
  assert (LG : length (anubis_gamma (rows kx)) = n) by (unfold anubis_gamma; now rewrite !map_length).
  unfold anubis_theta, anubis_pi. rewrite LG. cbv zeta. rewrite !map_map.
  rewrite (map_ext_in _ (fun i => be_bytes 4 (if Nat.eqb i 0 then N.lxor (anu_step kx i) (nth r anu_rc 0) else anu_step kx i))) by (intros; exact eq_refl).
  set (f := fun i => gf_mat khazad_poly (hadamard [1; 2; 4; 6]) (map (fun j => entry (anubis_gamma (rows kx)) ((i + 3 * n - j) mod n) j) (seq 0 4))).
  assert (Lf : forall i, length (f i) = 4%nat) by reflexivity.
  assert (E : forall i, (i < n)%nat -> be_bytes 4 (anu_step kx i) = f i) by (intros i Hi; exact (anu_step_pub kx i Hi)).
  unfold anubis_const, anubis_sigma. rewrite <- anu_rc_pub by exact Hr.
  change (map (fun x => gf_mat khazad_poly (hadamard [1; 2; 4; 6]) (map (fun j => entry (anubis_gamma (rows kx)) ((x + 3 * n - j) mod n) j) (seq 0 4))) (seq 0 n)) with (map f (seq 0 n)).
  clearbody f. destruct n as [|m]; [lia|]. replace (S m - 1)%nat with m by lia. cbn [seq map combine fst snd Nat.eqb].
  rewrite zip_zeros by exact Lf. f_equal.
  - rewrite be_bytes_lxor, E by lia. symmetry. apply xor_list_vxor.
  - apply map_ext_in. intros i Hi. apply in_seq in Hi. destruct (Nat.eqb_spec i 0); [lia|]. apply E. lia.
Qed.
Lemma anu_next_length kx c : length (anu_next kx c) = length kx.
Proof. unfold anu_next. now rewrite map_length, seq_length. Qed.
Lemma anu_keys_pub n : forall i kx ks j, (0 < length kx <= 10)%nat -> (i + n <= 64)%nat -> anu_keys n i kx = Ok ks -> (j <= n)%nat ->
  rows (nth j ks []) = anubis_tau (anubis_omega (anubis_gamma (fold_left anubis_kappa (seq (S i) j) (rows kx)))).
Proof.
  induction n as [|n IH]; intros i kx ks j Hl Hi E Hj; cbn [anu_keys] in E.
  - apply Ok_inj in E. subst ks. assert (j = 0)%nat by lia. subst j. cbn [nth seq fold_left]. now apply anu_rkey_pub.
  - rewrite (get_ok _ _ 0) in E by (change (length anu_rc) with 64%nat; lia). cbn [bind] in E.
    destruct (anu_keys n (S i) (anu_next kx (nth i anu_rc 0))) as [ks'|e] eqn:E'; [|discriminate E]. cbn [bind] in E. apply Ok_inj in E. subst ks.
    destruct j as [|j]; [cbn [nth seq fold_left]; now apply anu_rkey_pub|]. cbn [nth seq fold_left].
    rewrite (IH (S i) (anu_next kx (nth i anu_rc 0)) ks' j); [|rewrite anu_next_length; exact Hl|lia|exact E'|lia].
    rewrite anu_next_pub by lia. reflexivity.
Qed.
Lemma be_words_rows n l : bytes_ok l -> (4 * n <= length l)%nat -> rows (be_words 4 n l) = rows_of n l.
Proof.
  intros Hb Hl. unfold be_words, rows_of. rewrite map_map. apply map_ext_in. intros i Hi. apply in_seq in Hi.
  assert (L : length (slice (4 * i) 4 l) = 4%nat) by (unfold slice; rewrite firstn_length, skipn_length; lia).
  rewrite <- L at 1. apply be_bytes_val. now apply bytes_slice.
Qed.

Lemma anubis_create_gen r key s : anubis_create r key = Ok s -> anu_setup (anubis_rounds r key) key = Ok s.
Proof. intros H. unfold anubis_create in H. apply assert_inv in H. destruct H as [_ H]. cbv zeta in H. apply fits_inv in H. exact (proj2 H). Qed.

(** with any number of rounds from 1 to 64 *)
Lemma anubis_any_enc q R key s pt : bytes_ok key -> (0 < length key <= 40)%nat -> N.to_nat q = R -> (1 <= R <= 64)%nat -> anu_setup q key = Ok s -> blk 16 pt ->
  anubis_encrypt s pt = Ok (anubis_any R key pt).
Proof.
  intros Hb Hk Er HR Es Hp. pose proof (anu_words_bound key (conj Hb Hk)) as Hw.
  unfold anu_setup in Es. cbv zeta in Es. rewrite Er in Es.
  destruct (anu_keys_ok R 0 (key32b key (anu_words key)) ltac:(lia)) as (ks & Eks & Lks & Wks). rewrite Eks in Es. cbn [bind] in Es. apply Ok_inj in Es. subst s.
  unfold anubis_encrypt. cbn [anu_k anu_r]. rewrite anu_crypt_eq by (try assumption; lia). f_equal. rewrite Er.
  unfold anubis_any. cbv zeta. fold (anu_words key). set (n := anu_words key) in *.
  assert (Hln : (length key <= 4 * n)%nat).
  { unfold n, anu_words. pose proof (Nat.div_mod (length key + 3) 4 ltac:(lia)). pose proof (Nat.mod_upper_bound (length key + 3) 4 ltac:(lia)). lia. }
  rewrite key32b_words in Eks by assumption.
  pose proof (bytes_zero_pad (4 * n) key Hb) as BZ. pose proof (length_zero_pad (4 * n) key Hln) as LZ. set (zk := zero_pad (4 * n) key) in *. clearbody zk.
  assert (LW : length (be_words 4 n zk) = n) by (unfold be_words; now rewrite map_length, seq_length).
  set (K := fun i => nth i ks []).
  assert (KK : forall r, (r <= R)%nat -> rows (K r) = anubis_key n zk r).
  { intros r Hr. unfold K, anubis_key. rewrite (anu_keys_pub R 0 (be_words 4 n zk) ks r ltac:(rewrite LW; exact (conj (proj1 Hw) (proj2 Hw))) ltac:(lia) Eks Hr). now rewrite be_words_rows by (auto; lia). }
  assert (KR : forall r, (r <= R)%nat -> regs 32 4 (K r)) by (intros r Hr; apply anu_nth_regs; [exact Wks|lia]).
  clearbody K. clear Eks Lks Wks.
  destruct Hp as [Lp Bp]. rewrite loads32b_be by (auto; lia). rewrite zero_pad_full by lia. rewrite stores32b_be. unfold be_string. rewrite flat_map_concat_map.
  f_equal. unfold spn. replace (S (R - 1)) with R by lia.
  rewrite anu_sigma, KK by lia. f_equal. rewrite anu_sub_pub.
  2: { assert (G : forall m i x, (i + m <= S R)%nat -> regs 32 4 x -> length (pfor m i (fun i x => vxor (map anu_lw (anu_sub x)) (K i)) x) = 4%nat).
       { induction m as [|m IHm]; intros i x Hi Hx; [exact (proj1 Hx)|]. cbn [pfor]. apply IHm; [lia|]. apply regs_vxor; [apply anu_map_regs, anu_sub_regs|apply KR; lia]. }
       apply G; [lia|]. apply regs_vxor; [now apply (be_words_regs 4 32)|apply KR; lia]. }
  do 2 f_equal.
  assert (X0 : rows (vxor (be_words 4 4 pt) (K 0%nat)) = anubis_sigma (anubis_key n zk 0) (rows_of 4 pt)).
  { rewrite anu_sigma, KK by lia. f_equal. apply be_words_rows; [exact Bp|lia]. }
  rewrite <- X0. assert (R0 : length (vxor (be_words 4 4 pt) (K 0%nat)) = 4%nat).
  { assert (G : regs 32 4 (vxor (be_words 4 4 pt) (K 0%nat))); [|exact (proj1 G)]. apply regs_vxor; [now apply (be_words_regs 4 32)|apply KR; lia]. }
  clear X0. set (x := vxor (be_words 4 4 pt) (K 0%nat)) in *. clearbody x.
  assert (G : forall m i x, (1 <= i)%nat -> (i + m <= R)%nat -> length x = 4%nat ->
    rows (pfor m i (fun i x => vxor (map anu_lw (anu_sub x)) (K i)) x) =
    fold_left (fun a r => anubis_sigma (anubis_key n zk r) (anubis_theta (anubis_tau (anubis_gamma a)))) (seq i m) (rows x)).
  { clear x R0. induction m as [|m IHm]; intros i x Hi Hm Lx; [reflexivity|]. cbn [pfor seq fold_left]. rewrite IHm; [|lia|lia|].
    - f_equal. rewrite anu_sigma, KK by lia. f_equal. rewrite anu_theta by apply anu_sub_regs. now rewrite anu_sub_pub.
    - assert (G : regs 32 4 (vxor (map anu_lw (anu_sub x)) (K i))); [|exact (proj1 G)]. apply regs_vxor; [apply anu_map_regs, anu_sub_regs|apply KR; lia]. }
  apply G; [lia|lia|exact R0].
Qed.

Lemma anubis_published : is_cipher anubis_desc (up_to 40) anubis_cipher.
Proof.
  apply (is_cipher_default _ _ _ anubis_default); [intros key Hk; exact Hk|].
  intros key s Hb Hk Es pt Hp. apply anubis_create_gen in Es. unfold up_to in Hk. pose proof (anu_words_bound key (conj Hb Hk)) as Hw.
  change (anubis_cipher key pt) with (anubis_any (Nat.max 12 (8 + (length key + 3) / 4)) key pt).
  change (bc_enc anubis_desc) with anubis_encrypt. change (bc_bs anubis_desc) with 16%nat in Hp.
  apply (anubis_any_enc (anubis_rounds 0 key)); [exact Hb|exact Hk| | |exact Es|exact Hp].
  - unfold anubis_rounds. change (0 =? 0) with true. cbv iota. fold (anu_words key). lia.
  - fold (anu_words key). lia.
Qed.
