(** CAST-128 is the cipher of RFC 2144, but for keys of 6 to 10 bytes. *)
From Coq Require Import NArith Arith List Bool Lia.
From Verif Require Import Lib.Word Lib.Res Lib.Bytes Lib.Bits Lib.Bij Lib.Lists Lib.Feistel Lib.BlockLemmas Lib.Lin Lib.WordSpec Lib.WordsP
  Spec.Words Spec.Block Spec.Arx Spec.Pub7 Model.LoadStore Model.BlockApi Model.Table Model.Cast5 Model.Ciphers
  Proof.LoadStoreP Proof.Sha1P Proof.ArxP Proof.PubLib Proof.TableP Proof.Cast5P Proof.RekeyP Proof.CiphersP Proof.SkipjackPubP Proof.TwofishPubP.
Import ListNotations.
Local Open Scope N_scope.

Ltac four_cases H := match type of H with length ?l = _ => destruct l as [|? [|? [|? [|? [|]]]]]; try discriminate H; clear H end.

(** ** Tables and bytes *)
Lemma cast_S1_eq : cast_S1 = c5_s1.
Proof. exact eq_refl. Qed.
Lemma cast_S2_eq : cast_S2 = c5_s2.
Proof. exact eq_refl. Qed.
Lemma cast_S3_eq : cast_S3 = c5_s3.
Proof. exact eq_refl. Qed.
Lemma cast_S4_eq : cast_S4 = c5_s4.
Proof. exact eq_refl. Qed.
Lemma cast_S5_eq : cast_S5 = c5_s5.
Proof. exact eq_refl. Qed.
Lemma cast_S6_eq : cast_S6 = c5_s6.
Proof. exact eq_refl. Qed.
Lemma cast_S7_eq : cast_S7 = c5_s7.
Proof. exact eq_refl. Qed.
Lemma cast_S8_eq : cast_S8 = c5_s8.
Proof. exact eq_refl. Qed.
Lemma tab8_cast t i y : nth i [[]; cast_S1; cast_S2; cast_S3; cast_S4; cast_S5; cast_S6; cast_S7; cast_S8] [] = t -> tab8 t y = cast_s i (byte y).
Proof. intros <-. exact eq_refl. Qed.
Lemma tab8_s1 y : tab8 c5_s1 y = cast_s 1 (byte y).
Proof. exact (tab8_cast _ 1 y cast_S1_eq). Qed.
Lemma tab8_s2 y : tab8 c5_s2 y = cast_s 2 (byte y).
Proof. exact (tab8_cast _ 2 y cast_S2_eq). Qed.
Lemma tab8_s3 y : tab8 c5_s3 y = cast_s 3 (byte y).
Proof. exact (tab8_cast _ 3 y cast_S3_eq). Qed.
Lemma tab8_s4 y : tab8 c5_s4 y = cast_s 4 (byte y).
Proof. exact (tab8_cast _ 4 y cast_S4_eq). Qed.
Lemma tab8_s5 y : tab8 c5_s5 y = cast_s 5 (byte y).
Proof. exact (tab8_cast _ 5 y cast_S5_eq). Qed.
Lemma tab8_s6 y : tab8 c5_s6 y = cast_s 6 (byte y).
Proof. exact (tab8_cast _ 6 y cast_S6_eq). Qed.
Lemma tab8_s7 y : tab8 c5_s7 y = cast_s 7 (byte y).
Proof. exact (tab8_cast _ 7 y cast_S7_eq). Qed.
Lemma tab8_s8 y : tab8 c5_s8 y = cast_s 8 (byte y).
Proof. exact (tab8_cast _ 8 y cast_S8_eq). Qed.
Lemma byte_byte x : byte (byte x) = byte x.
Proof. rewrite !byte_mod. apply N.mod_mod. discriminate. Qed.
Definition wb (w : N) (k : nat) : N := byte (wshr w (8 * N.of_nat (3 - k))).
Lemma wbyte_wb w k : (k < 4)%nat -> wbyte w k = wb w k.
Proof.
  intros H. unfold wbyte, wb. rewrite <- store32b_bytes. destruct k as [|[|[|[|k]]]]; try lia; [exact eq_refl..|]. unfold wshr. cbn [store32b nth]. now rewrite N.shiftr_0_r.
Qed.
Lemma qbyte_wb a b c d i : (i < 16)%nat -> qbyte [a; b; c; d] i = wb (nth (i / 4) [a; b; c; d] 0) (i mod 4).
Proof.
  intros H. unfold qbyte, be_string. cbn [flat_map].
  pose proof (Nat.div_mod i 4 ltac:(lia)) as D. pose proof (Nat.mod_upper_bound i 4 ltac:(lia)) as U. set (q := (i / 4)%nat) in *. set (m := (i mod 4)%nat) in *. clearbody q m. subst i.
  rewrite <- (wbyte_wb _ m U). unfold wbyte. assert (L : forall w, length (be_bytes 4 w) = 4%nat) by (intros w; apply length_be_bytes).
  destruct q as [|[|[|[|q]]]]; try lia.
  - rewrite app_nth1 by (rewrite L; lia). f_equal.
  - rewrite app_nth2, app_nth1 by (rewrite !L; lia). rewrite L. cbn [nth]. f_equal. lia.
  - rewrite app_nth2, app_nth2, app_nth1 by (rewrite !L; lia). rewrite !L. cbn [nth]. f_equal. lia.
  - rewrite app_nth2, app_nth2, app_nth2, app_nth1 by (rewrite !L; lia). rewrite !L. cbn [nth]. f_equal. lia.
Qed.

(** ** The key schedule *)
Definition kval (S : nat -> N -> N) (w : N -> nat -> N) (s : c5_state) (b : option c5_ix) (l : list (nat * c5_ix)) : N :=
  fold_left (fun v p => N.lxor v (S (fst p) (w (c5_word s (snd p)) (c5_pos (snd p) mod 4)%nat))) l
    (match b with None => 0 | Some i => c5_word s i end).
Definition kexec (S : nat -> N -> N) (w : N -> nat -> N) (st : c5_kstmt) (s : c5_state) : c5_state :=
  let '(d, b, l) := st in
  let v := kval S w s b l in
  match d with
  | DX i => {| cs_x := upd (cs_x s) i v; cs_z := cs_z s; cs_km := cs_km s; cs_kr := cs_kr s |}
  | DZ i => {| cs_x := cs_x s; cs_z := upd (cs_z s) i v; cs_km := cs_km s; cs_kr := cs_kr s |}
  | DM i => {| cs_x := cs_x s; cs_z := cs_z s; cs_km := upd (cs_km s) i v; cs_kr := cs_kr s |}
  | DR i => {| cs_x := cs_x s; cs_z := cs_z s; cs_km := cs_km s; cs_kr := upd (cs_kr s) i (N.land v 31) |}
  end.
Definition tabs_ok (l : list (nat * c5_ix)) : bool := forallb (fun p => Nat.leb 5 (fst p) && Nat.leb (fst p) 8) l.
Lemma c5_tab_pub n y : Nat.leb 5 n && Nat.leb n 8 = true -> tab8 (c5_tab n) (byte y) = cast_s n (byte y).
Proof.
  intros H. apply andb_true_iff in H. destruct H as [H5 H8]. apply Nat.leb_le in H5, H8. assert (C : (n = 5 \/ n = 6 \/ n = 7 \/ n = 8)%nat) by lia.
  rewrite <- (byte_byte y) at 2. destruct C as [->|[->|[->| ->]]]; [exact (tab8_s5 (byte y))|exact (tab8_s6 (byte y))|exact (tab8_s7 (byte y))|exact (tab8_s8 (byte y))].
Qed.
Lemma kval_pub s b l : tabs_ok l = true -> c5_val s b l = kval cast_s wb s b l.
Proof.
  unfold c5_val, kval. generalize (match b with None => 0 | Some i => c5_word s i end). clear b. induction l as [|p l IH]; intros v H; [reflexivity|].
  cbn [tabs_ok forallb] in H. apply andb_true_iff in H. destruct H as [H1 H2]. cbn [fold_left]. rewrite IH by exact H2. f_equal. f_equal. unfold c5_byte. rewrite (c5_tab_pub _ _ H1). reflexivity.
Qed.
Lemma kexec_pub sched s : forallb (fun st => tabs_ok (snd st)) sched = true -> prun c5_kexec sched s = prun (kexec cast_s wb) sched s.
Proof.
  unfold prun. revert s. induction sched as [|[[d b] l] sched IH]; intros s H; [reflexivity|]. cbn [forallb snd] in H. apply andb_true_iff in H. destruct H as [H1 H2]. cbn [fold_left].
  rewrite IH by exact H2. f_equal. unfold c5_kexec, kexec. rewrite (kval_pub s b l H1). reflexivity.
Qed.
(** the statements in groups of four *)
Definition st_z : list c5_kstmt :=
  [(DZ 0, Some (IX 0), [(5%nat, IX 13); (6%nat, IX 15); (7%nat, IX 12); (8%nat, IX 14); (7%nat, IX 8)]);
   (DZ 1, Some (IX 8), [(5%nat, IZ 0); (6%nat, IZ 2); (7%nat, IZ 1); (8%nat, IZ 3); (8%nat, IX 10)]);
   (DZ 2, Some (IX 12), [(5%nat, IZ 7); (6%nat, IZ 6); (7%nat, IZ 5); (8%nat, IZ 4); (5%nat, IX 9)]);
   (DZ 3, Some (IX 4), [(5%nat, IZ 10); (6%nat, IZ 9); (7%nat, IZ 11); (8%nat, IZ 8); (6%nat, IX 11)])].
Definition st_x : list c5_kstmt :=
  [(DX 0, Some (IZ 8), [(5%nat, IZ 5); (6%nat, IZ 7); (7%nat, IZ 4); (8%nat, IZ 6); (7%nat, IZ 0)]);
   (DX 1, Some (IZ 0), [(5%nat, IX 0); (6%nat, IX 2); (7%nat, IX 1); (8%nat, IX 3); (8%nat, IZ 2)]);
   (DX 2, Some (IZ 4), [(5%nat, IX 7); (6%nat, IX 6); (7%nat, IX 5); (8%nat, IX 4); (5%nat, IZ 1)]);
   (DX 3, Some (IZ 12), [(5%nat, IX 10); (6%nat, IX 9); (7%nat, IX 11); (8%nat, IX 8); (6%nat, IZ 3)])].
Definition st_k (d : nat -> c5_dst) (q : nat -> c5_ix) (o : nat) (ix : list (list nat)) : list c5_kstmt :=
  map (fun i => let t := nth i ix [] in
    (d (o + i)%nat, None, [(5%nat, q (nth 0 t 0%nat)); (6%nat, q (nth 1 t 0%nat)); (7%nat, q (nth 2 t 0%nat)); (8%nat, q (nth 3 t 0%nat)); ((5 + i)%nat, q (nth 4 t 0%nat))])) (seq 0 4).
Definition st_all (d : nat -> c5_dst) : list c5_kstmt :=
  st_z ++ st_k d IZ 0 cast_ix1 ++ st_x ++ st_k d IX 4 cast_ix2 ++ st_z ++ st_k d IZ 8 cast_ix3 ++ st_x ++ st_k d IX 12 cast_ix4.
Lemma c5_sched_groups : c5_sched = st_all DM ++ st_all DR.
Proof. reflexivity. Qed.
Section Stages.
  Variables (S : nat -> N -> N) (w : N -> nat -> N).
  Definition g5678 (a b c d : N) : N := N.lxor (N.lxor (N.lxor (S 5%nat a) (S 6%nat b)) (S 7%nat c)) (S 8%nat d).
  Definition gline (v a b c d : N) (k : nat) (e : N) : N := N.lxor (N.lxor v (g5678 a b c d)) (S k e).
  Definition gz (x : list N) : list N :=
    let X i := w (nth (i / 4) x 0) (i mod 4)%nat in
    let z0 := gline (nth 0 x 0) (X 13%nat) (X 15%nat) (X 12%nat) (X 14%nat) 7 (X 8%nat) in
    let z1 := gline (nth 2 x 0) (w z0 0%nat) (w z0 2%nat) (w z0 1%nat) (w z0 3%nat) 8 (X 10%nat) in
    let z2 := gline (nth 3 x 0) (w z1 3%nat) (w z1 2%nat) (w z1 1%nat) (w z1 0%nat) 5 (X 9%nat) in
    let z3 := gline (nth 1 x 0) (w z2 2%nat) (w z2 1%nat) (w z2 3%nat) (w z2 0%nat) 6 (X 11%nat) in
    [z0; z1; z2; z3].
  Definition gx (z : list N) : list N :=
    let Z i := w (nth (i / 4) z 0) (i mod 4)%nat in
    let x0 := gline (nth 2 z 0) (Z 5%nat) (Z 7%nat) (Z 4%nat) (Z 6%nat) 7 (Z 0%nat) in
    let x1 := gline (nth 0 z 0) (w x0 0%nat) (w x0 2%nat) (w x0 1%nat) (w x0 3%nat) 8 (Z 2%nat) in
    let x2 := gline (nth 1 z 0) (w x1 3%nat) (w x1 2%nat) (w x1 1%nat) (w x1 0%nat) 5 (Z 1%nat) in
    let x3 := gline (nth 3 z 0) (w x2 2%nat) (w x2 1%nat) (w x2 3%nat) (w x2 0%nat) 6 (Z 3%nat) in
    [x0; x1; x2; x3].
  Definition gfour (ix : list (list nat)) (q : list N) : list N :=
    map (fun i => let t := nth i ix [] in let B j := w (nth (nth j t 0%nat / 4)%nat q 0) (nth j t 0%nat mod 4)%nat in
                  N.lxor (g5678 (B 0%nat) (B 1%nat) (B 2%nat) (B 3%nat)) (S (5 + i)%nat (B 4%nat))) (seq 0 4).
  Lemma gline_flat v a b c d k e : N.lxor (N.lxor (N.lxor (N.lxor (N.lxor v (S 5%nat a)) (S 6%nat b)) (S 7%nat c)) (S 8%nat d)) (S k e) = gline v a b c d k e.
  Proof. unfold gline, g5678. now rewrite !N.lxor_assoc. Qed.
  Lemma kval_line s i a b c d k e : kval S w s (Some i) [(5%nat, a); (6%nat, b); (7%nat, c); (8%nat, d); (k, e)] =
    let B j := w (c5_word s j) (c5_pos j mod 4)%nat in gline (c5_word s i) (B a) (B b) (B c) (B d) k (B e).
  Proof. unfold kval. cbn [fold_left fst snd]. apply gline_flat. Qed.
  Lemma stage_z x0 x1 x2 x3 z0 z1 z2 z3 km kr :
    prun (kexec S w) st_z {| cs_x := [x0; x1; x2; x3]; cs_z := [z0; z1; z2; z3]; cs_km := km; cs_kr := kr |} =
    {| cs_x := [x0; x1; x2; x3]; cs_z := gz [x0; x1; x2; x3]; cs_km := km; cs_kr := kr |}.
  Proof.
    unfold prun, st_z. cbn [fold_left]. unfold kexec. rewrite !kval_line. unfold gz. generalize gline. intros G. reflexivity.
  Qed.
  Lemma stage_x x0 x1 x2 x3 z0 z1 z2 z3 km kr :
    prun (kexec S w) st_x {| cs_x := [x0; x1; x2; x3]; cs_z := [z0; z1; z2; z3]; cs_km := km; cs_kr := kr |} =
    {| cs_x := gx [z0; z1; z2; z3]; cs_z := [z0; z1; z2; z3]; cs_km := km; cs_kr := kr |}.
  Proof.
    unfold prun, st_x. cbn [fold_left]. unfold kexec. rewrite !kval_line. unfold gx. generalize gline. intros G. reflexivity.
  Qed.
  Lemma kval_four s a b c d k e : kval S w s None [(5%nat, a); (6%nat, b); (7%nat, c); (8%nat, d); (k, e)] =
    let B j := w (c5_word s j) (c5_pos j mod 4)%nat in N.lxor (g5678 (B a) (B b) (B c) (B d)) (S k (B e)).
  Proof. unfold kval, g5678. cbn [fold_left fst snd]. now rewrite N.lxor_0_l. Qed.
  Definition put (l : list N) (o : nat) (v : list N) : list N :=
    fold_left (fun l i => upd l (o + i) (nth i v 0)) (seq 0 4) l.
  Lemma stage_mz x z km kr o ix :
    prun (kexec S w) (st_k DM IZ o ix) {| cs_x := x; cs_z := z; cs_km := km; cs_kr := kr |} =
    {| cs_x := x; cs_z := z; cs_km := put km o (gfour ix z); cs_kr := kr |}.
  Proof.
    unfold prun, st_k. cbn [map seq fold_left]. unfold kexec. rewrite !kval_four. unfold put, gfour. generalize g5678. intros g. reflexivity.
  Qed.
  Lemma stage_mx x z km kr o ix :
    prun (kexec S w) (st_k DM IX o ix) {| cs_x := x; cs_z := z; cs_km := km; cs_kr := kr |} =
    {| cs_x := x; cs_z := z; cs_km := put km o (gfour ix x); cs_kr := kr |}.
  Proof.
    unfold prun, st_k. cbn [map seq fold_left]. unfold kexec. rewrite !kval_four. unfold put, gfour. generalize g5678. intros g. reflexivity.
  Qed.
  Lemma stage_rz x z km kr o ix :
    prun (kexec S w) (st_k DR IZ o ix) {| cs_x := x; cs_z := z; cs_km := km; cs_kr := kr |} =
    {| cs_x := x; cs_z := z; cs_km := km; cs_kr := put kr o (map (fun v => N.land v 31) (gfour ix z)) |}.
  Proof.
    unfold prun, st_k. cbn [map seq fold_left]. unfold kexec. rewrite !kval_four. unfold put, gfour. generalize g5678. intros g. reflexivity.
  Qed.
  Lemma stage_rx x z km kr o ix :
    prun (kexec S w) (st_k DR IX o ix) {| cs_x := x; cs_z := z; cs_km := km; cs_kr := kr |} =
    {| cs_x := x; cs_z := z; cs_km := km; cs_kr := put kr o (map (fun v => N.land v 31) (gfour ix x)) |}.
  Proof.
    unfold prun, st_k. cbn [map seq fold_left]. unfold kexec. rewrite !kval_four. unfold put, gfour. generalize g5678. intros g. reflexivity.
  Qed.
End Stages.

Section Schedule.
  Variables (S : nat -> N -> N) (w : N -> nat -> N).
  Definition gsixteen (x : list N) : list N * list N :=
    let z := gz S w x in
    let x1 := gx S w z in
    let z1 := gz S w x1 in
    let x2 := gx S w z1 in
    (gfour S w cast_ix1 z ++ gfour S w cast_ix2 x1 ++ gfour S w cast_ix3 z1 ++ gfour S w cast_ix4 x2, x2).
  Lemma length_gz x : length (gz S w x) = 4%nat.
  Proof. exact eq_refl. Qed.
  Lemma length_gx x : length (gx S w x) = 4%nat.
  Proof. exact eq_refl. Qed.
  Lemma length_gfour ix q : length (gfour S w ix q) = 4%nat.
  Proof. exact eq_refl. Qed.
  Lemma put_four (a b c d : list N) : length a = 4%nat -> length b = 4%nat -> length c = 4%nat -> length d = 4%nat ->
    put (put (put (put (repeat 0 16) 0 a) 4 b) 8 c) 12 d = a ++ b ++ c ++ d.
  Proof. intros Ha Hb Hc Hd. four_cases Ha. four_cases Hb. four_cases Hc. four_cases Hd. reflexivity. Qed.
  Lemma stage_zl x z km kr : length x = 4%nat -> length z = 4%nat ->
    prun (kexec S w) st_z {| cs_x := x; cs_z := z; cs_km := km; cs_kr := kr |} =
    {| cs_x := x; cs_z := gz S w x; cs_km := km; cs_kr := kr |}.
  Proof. intros Hx Hz. four_cases Hx. four_cases Hz. apply stage_z. Qed.
  Lemma stage_xl x z km kr : length x = 4%nat -> length z = 4%nat ->
    prun (kexec S w) st_x {| cs_x := x; cs_z := z; cs_km := km; cs_kr := kr |} =
    {| cs_x := gx S w z; cs_z := z; cs_km := km; cs_kr := kr |}.
  Proof. intros Hx Hz. four_cases Hx. four_cases Hz. apply stage_x. Qed.
  Lemma all_m x z kr : length x = 4%nat -> length z = 4%nat ->
    prun (kexec S w) (st_all DM) {| cs_x := x; cs_z := z; cs_km := repeat 0 16; cs_kr := kr |} =
    {| cs_x := snd (gsixteen x); cs_z := gz S w (gx S w (gz S w x)); cs_km := fst (gsixteen x); cs_kr := kr |}.
  Proof.
    intros Hx Hz. unfold st_all, gsixteen. cbv zeta. cbn [fst snd].
    rewrite !prun_app, stage_zl, stage_mz, stage_xl, stage_mx, stage_zl, stage_mz, stage_xl, stage_mx by first [assumption|apply length_gz|apply length_gx].
    rewrite put_four by apply length_gfour. reflexivity.
  Qed.
  Lemma all_r x z km : length x = 4%nat -> length z = 4%nat ->
    prun (kexec S w) (st_all DR) {| cs_x := x; cs_z := z; cs_km := km; cs_kr := repeat 0 16 |} =
    {| cs_x := snd (gsixteen x); cs_z := gz S w (gx S w (gz S w x)); cs_km := km; cs_kr := map (fun v => N.land v 31) (fst (gsixteen x)) |}.
  Proof.
    intros Hx Hz. unfold st_all, gsixteen. cbv zeta. cbn [fst snd].
    rewrite !prun_app, stage_zl, stage_rz, stage_xl, stage_rx, stage_zl, stage_rz, stage_xl, stage_rx by first [assumption|apply length_gz|apply length_gx].
    rewrite put_four by (rewrite map_length; apply length_gfour). rewrite !map_app. reflexivity.
  Qed.
  Lemma length_sixteen x : length (fst (gsixteen x)) = 16%nat.
  Proof. exact eq_refl. Qed.
  Lemma length_sixteen_x x : length (snd (gsixteen x)) = 4%nat.
  Proof. exact eq_refl. Qed.
  Lemma sixteen_all (P : N -> Prop) x : (forall ix q, Forall P (gfour S w ix q)) -> Forall P (fst (gsixteen x)).
  Proof. intros H. unfold gsixteen. cbv zeta. cbn [fst]. rewrite !Forall_app. exact (conj (H _ _) (conj (H _ _) (conj (H _ _) (H _ _)))). Qed.
End Schedule.

(** the published schedule is the generic one *)
Lemma cast_z_g x : length x = 4%nat -> cast_z x = gz cast_s wb x.
Proof.
  intros Hx. four_cases Hx. unfold cast_z, gz. cbv zeta. rewrite !qbyte_wb by lia. rewrite !wbyte_wb by lia. unfold gline, g5678, cast_5678, word. generalize cast_s wb. intros S w. reflexivity.
Qed.
Lemma cast_x_g x : length x = 4%nat -> cast_x x = gx cast_s wb x.
Proof.
  intros Hx. four_cases Hx. unfold cast_x, gx. cbv zeta. rewrite !qbyte_wb by lia. rewrite !wbyte_wb by lia. unfold gline, g5678, cast_5678, word. generalize cast_s wb. intros S w. reflexivity.
Qed.
Definition ix_ok (ix : list (list nat)) : bool := forallb (fun i => forallb (fun j => Nat.ltb (nth j (nth i ix []) 0%nat) 16) (seq 0 5)) (seq 0 4).
Lemma ix_ok_nth ix i j : ix_ok ix = true -> (i < 4)%nat -> (j < 5)%nat -> (nth j (nth i ix []) 0 < 16)%nat.
Proof.
  intros H Hi Hj. unfold ix_ok in H. rewrite forallb_forall in H. specialize (H i ltac:(apply in_seq; lia)). cbv beta in H. rewrite forallb_forall in H. specialize (H j ltac:(apply in_seq; lia)). now apply Nat.ltb_lt in H.
Qed.
Lemma cast_four_g ix q : ix_ok ix = true -> length q = 4%nat -> cast_four ix q = gfour cast_s wb ix q.
Proof.
  intros H Hq. four_cases Hq. unfold cast_four, gfour. apply map_ext_in. intros i Hi. apply in_seq in Hi. cbv zeta.
  rewrite !qbyte_wb by (apply ix_ok_nth; [exact H|lia|lia]). reflexivity.
Qed.
Lemma cast_sixteen_g x : length x = 4%nat -> cast_sixteen x = gsixteen cast_s wb x.
Proof.
  intros Hx. unfold cast_sixteen, gsixteen. cbv zeta. rewrite (cast_z_g x Hx).
  pose proof (length_gz cast_s wb x) as L. set (z := gz cast_s wb x) in *. clearbody z.
  rewrite (cast_x_g z L). pose proof (length_gx cast_s wb z) as L1. set (x1 := gx cast_s wb z) in *. clearbody x1.
  rewrite (cast_z_g x1 L1). pose proof (length_gz cast_s wb x1) as L2. set (z1 := gz cast_s wb x1) in *. clearbody z1.
  rewrite (cast_x_g z1 L2). pose proof (length_gx cast_s wb z1) as L3. set (x2 := gx cast_s wb z1) in *. clearbody x2.
  rewrite !cast_four_g by first [assumption|exact eq_refl]. reflexivity.
Qed.
Lemma sched_ok : forallb (fun st => tabs_ok (snd st)) c5_sched = true.
Proof. vm_compute. reflexivity. Qed.
Definition cast_keys (key : list N) : list N * list N :=
  let (Km, x) := cast_sixteen (be_words 4 4 (zero_pad 16 key)) in
  let (K, _) := cast_sixteen x in (Km, map (fun k => k mod 32) K).
Lemma setup_keys key : bytes_ok key -> (length key <= 16)%nat -> c5_km (cast5_setup key) = fst (cast_keys key) /\ c5_kr (cast5_setup key) = snd (cast_keys key).
Proof.
  intros Hb Hl. unfold cast5_setup, cast_keys. cbn [c5_km c5_kr]. rewrite (kexec_pub _ _ sched_ok), c5_sched_groups, prun_app.
  rewrite (key32b_words key 4) by first [exact Hb|lia]. set (x := be_words 4 4 (zero_pad (4 * 4) key)). change (zero_pad 16 key) with (zero_pad (4 * 4) key). fold x.
  assert (Hx : length x = 4%nat) by apply length_be_words. clearbody x.
  rewrite all_m by first [exact Hx|reflexivity]. rewrite (cast_sixteen_g x Hx).
  rewrite all_r by first [apply length_sixteen_x|apply length_gz]. cbn [cs_km cs_kr].
  pose proof (length_sixteen_x cast_s wb x) as L. rewrite (surjective_pairing (gsixteen cast_s wb x)) at 2 4. set (x' := snd (gsixteen cast_s wb x)) in *. set (km := fst (gsixteen cast_s wb x)). clearbody x' km.
  rewrite (cast_sixteen_g x' L). rewrite (surjective_pairing (gsixteen cast_s wb x')) at 2 3. cbn [fst snd]. split; [reflexivity|].
  apply map_ext. intros v. apply (N.land_ones v 5).
Qed.

(** ** The rounds *)
Lemma sub32_wsub a b : inw 32 b -> sub32 a b = wsub 32 a b.
Proof. intros H. unfold sub32, wsub. rewrite (mask_id _ _ H), mask_mod. f_equal. red in H. set (p := 2 ^ 32) in *. clearbody p. lia. Qed.
Definition cast_tabs : list (list N) := [cast_S1; cast_S2; cast_S3; cast_S4; cast_S5; cast_S6; cast_S7; cast_S8].
Lemma cast_tabs_okb : forallb (fun t => forallb (fun x => N.ltb x (2 ^ 32)) t) cast_tabs = true.
Proof. vm_compute. reflexivity. Qed.
Lemma cast_tab_ok i : words_ok 32 (nth i ([] :: cast_tabs) []).
Proof.
  pose proof cast_tabs_okb as C. rewrite forallb_forall in C. destruct (nth_in_or_default i ([] :: cast_tabs) []) as [D|D].
  - destruct D as [D|D]; [rewrite <- D; constructor|]. apply words_okb. exact (C _ D).
  - rewrite D. constructor.
Qed.
Lemma cast_s_inw i x : inw 32 (cast_s i x).
Proof. exact (Bytes.words_nth 32 _ _ (cast_tab_ok i)). Qed.
Lemma tabs_wbyte x : tab8 c5_s1 (wshr x 24) = cast_s 1 (wbyte x 0) /\ tab8 c5_s2 (wshr x 16) = cast_s 2 (wbyte x 1) /\
  tab8 c5_s3 (wshr x 8) = cast_s 3 (wbyte x 2) /\ tab8 c5_s4 x = cast_s 4 (wbyte x 3).
Proof.
  rewrite !wbyte_wb by lia. rewrite tab8_s1, tab8_s2, tab8_s3, tab8_s4. unfold wb. generalize cast_s. intros S.
  split; [exact eq_refl|]. split; [exact eq_refl|]. split; [exact eq_refl|]. unfold wshr. now rewrite N.shiftr_0_r.
Qed.
Lemma c5_fn_pub n y km kr : inw 32 y -> inw 32 km -> kr < 32 -> c5_fn n y km kr = cast_f n y km kr.
Proof.
  intros Hy Hk Hr.
  assert (F1 : c5_f1 y km kr = cast_f 1 y km kr).
  { unfold c5_f1, cast_f. cbv zeta. rewrite add32_wadd, rolv_rotl by first [exact Hr|apply inw_wadd]. set (x := rotl 32 (wadd 32 km y) kr).
    destruct (tabs_wbyte x) as (E1 & E2 & E3 & E4). rewrite E1, E2, E3, E4, add32_wadd, sub32_wsub by apply cast_s_inw. reflexivity. }
  assert (F2 : c5_f2 y km kr = cast_f 2 y km kr).
  { unfold c5_f2, cast_f. cbv zeta. rewrite rolv_rotl by first [exact Hr|now apply inw_lxor]. set (x := rotl 32 (N.lxor km y) kr).
    destruct (tabs_wbyte x) as (E1 & E2 & E3 & E4). rewrite E1, E2, E3, E4, add32_wadd, sub32_wsub by apply cast_s_inw. reflexivity. }
  assert (F3 : forall k, c5_f3 y km kr = cast_f (3 + k) y km kr).
  { intros k. unfold c5_f3, cast_f. cbv zeta. cbn [Nat.add]. rewrite (sub32_wsub km y Hy). rewrite rolv_rotl by first [exact Hr|apply inw_wsub]. set (x := rotl 32 (wsub 32 km y) kr).
    destruct (tabs_wbyte x) as (E1 & E2 & E3 & E4). rewrite E1, E2, E3, E4, add32_wadd, sub32_wsub by apply cast_s_inw. reflexivity. }
  destruct n as [|[|[|n]]]; [|exact F1|exact F2|exact (F3 n)]. exact (F3 0%nat).
Qed.
Lemma fold_map {A B C} (f : A -> B -> A) (g : C -> B) l : forall x, fold_left f (map g l) x = fold_left (fun x c => f x (g c)) l x.
Proof. induction l as [|c l IH]; intros x; [reflexivity|apply IH]. Qed.
Definition stmt (t : nat) : c5_stmt := (Nat.even t, (t mod 3 + 1)%nat, t).
Lemma enc_stmts : c5_enc12 = map stmt (seq 0 12) /\ c5_enc12 ++ c5_enc4 = map stmt (seq 0 16).
Proof. split; reflexivity. Qed.
Definition side (t : nat) (v : N * N) : N * N := if Nat.even t then v else (snd v, fst v).
Lemma cast_rounds s n v : words_ok 32 (c5_km s) -> Forall (fun k => k < 32) (c5_kr s) -> inw 32 (fst v) -> inw 32 (snd v) ->
  side n (fold_left (cast_round (c5_km s) (c5_kr s)) (seq 0 n) v) = prun (c5_exec s) (map stmt (seq 0 n)) v.
Proof.
  intros Hm Hr H1 H2. unfold prun. rewrite fold_map.
  pose proof (fold_rel (fun t (x y : N * N) => side t y = x /\ inw 32 (fst y) /\ inw 32 (snd y))
    (fun x t => c5_exec s (stmt t) x) (cast_round (c5_km s) (c5_kr s)) n 0 v v) as R. cbv beta in R.
  destruct R as [R _]; [|split; [destruct v; reflexivity|now split]|exact R].
  intros t y [L R0] _ (<- & HL & HR). cbn [fst snd] in HL, HR.
  assert (Kr : nth t (c5_kr s) 0 < 32).
  { destruct (nth_in_or_default t (c5_kr s) 0) as [D|D]; [|rewrite D; reflexivity]. rewrite Forall_forall in Hr. exact (Hr _ D). }
  unfold cast_round. rewrite <- c5_fn_pub by first [exact HR|now apply Bytes.words_nth|exact Kr].
  assert (E : Nat.even (S t) = negb (Nat.even t)) by (rewrite Nat.even_succ; symmetry; apply Nat.negb_even).
  split.
  - unfold side, stmt, c5_exec. rewrite E. destruct (Nat.even t); cbn [negb fst snd]; reflexivity.
  - cbn [fst snd]. split; [exact HR|]. apply inw_lxor; [exact HL|apply c5_fn_inw].
Qed.
Lemma gfour_inw ix q : words_ok 32 (gfour cast_s wb ix q).
Proof.
  unfold gfour, words_ok. rewrite Forall_map, Forall_forall. intros i _. cbv zeta. unfold g5678. repeat (apply inw_lxor; [|apply cast_s_inw]). apply cast_s_inw.
Qed.
Lemma cast_keys_ok key : words_ok 32 (fst (cast_keys key)) /\ Forall (fun k => k < 32) (snd (cast_keys key)).
Proof.
  unfold cast_keys. set (x := be_words 4 4 (zero_pad 16 key)). assert (Hx : length x = 4%nat) by apply length_be_words. clearbody x.
  rewrite (cast_sixteen_g x Hx). rewrite (surjective_pairing (gsixteen cast_s wb x)). destruct (cast_sixteen (snd (gsixteen cast_s wb x))) as [K r]. cbn [fst snd]. split.
  - exact (sixteen_all cast_s wb (inw 32) x gfour_inw).
  - rewrite Forall_map, Forall_forall. intros k _. now apply N.mod_lt.
Qed.
Lemma cast5_create_inv key s : cast5_create 0 key = Ok s -> s = cast5_setup key.
Proof.
  intros Es. unfold cast5_create in Es. apply assert_inv in Es. destruct Es as [_ Es]. apply assert_inv in Es. destruct Es as [_ Es]. apply Ok_inj in Es. now symmetry.
Qed.
Lemma cast_full_keys r key pt : cast_full r key pt =
  let '(L, R) := fold_left (cast_round (fst (cast_keys key)) (snd (cast_keys key))) (seq 0 r) (word (be_words 4 2 pt) 0, word (be_words 4 2 pt) 1) in be_string 4 [R; L].
Proof. unfold cast_full, cast_keys. destruct (cast_sixteen _) as [Km x]. destruct (cast_sixteen x) as [K z]. exact eq_refl. Qed.
Lemma cast5_rounds : is_cipher cast5_desc (up_to 16) (fun key => cast_full (if Nat.leb (length key) 5 then 12 else 16) key).
Proof.
  apply (is_cipher_default _ _ _ cast5_default); [intros key Hk; exact Hk|].
  intros key s Hb Hk Es pt Hp. apply cast5_create_inv in Es. cbn [cast5_desc bc_enc bc_bs] in *.
  destruct (setup_keys key Hb (proj2 Hk)) as [E1 E2]. destruct (cast_keys_ok key) as [K1 K2]. rewrite cast_full_keys, <- E1, <- E2. rewrite <- E1 in K1. rewrite <- E2 in K2.
  assert (Er : c5_r s = if Nat.leb (length key) 5 then 12 else 16) by (subst s; exact eq_refl). rewrite <- Es in *. clear Es E1 E2.
  unfold cast5_encrypt. rewrite ld2_be32 by exact Hp. set (v := (word (be_words 4 2 pt) 0, word (be_words 4 2 pt) 1)).
  assert (V : inw 32 (fst v) /\ inw 32 (snd v)) by (split; apply (be_words_word 4); (apply Hp || reflexivity)). clearbody v.
  rewrite Er. destruct (Nat.leb (length key) 5).
  - change (12 <? 12) with false. rewrite (proj1 enc_stmts). rewrite <- (cast_rounds s 12 v K1 K2 (proj1 V) (proj2 V)).
    destruct (fold_left _ _ _) as [a b]. unfold side. cbn [Nat.even fst snd]. now rewrite st2_be32.
  - change (12 <? 16) with true. rewrite <- prun_app, (proj2 enc_stmts). rewrite <- (cast_rounds s 16 v K1 K2 (proj1 V) (proj2 V)).
    destruct (fold_left _ _ _) as [a b]. unfold side. cbn [Nat.even fst snd]. now rewrite st2_be32.
Qed.
Definition cast_lengths (key : list N) : Prop := (0 < length key <= 5)%nat \/ (10 < length key <= 16)%nat.
Lemma is_cipher_some c (ok ok' : list N -> Prop) E E' : (forall key, ok' key -> ok key /\ forall pt, E key pt = E' key pt) -> is_cipher c ok E -> is_cipher c ok' E'.
Proof.
  intros H C key Hb Hk. destruct (H key Hk) as [H1 H2]. destruct (C key Hb H1) as (s & Es & F). exists s. split; [exact Es|]. intros pt Hp. rewrite <- H2. now apply F.
Qed.
(** a test vector the code reproduces is one of the published cipher *)
Definition agrees (c : bcipher) (key pt ct : list N) : bool :=
  match bc_create c 0 key with
  | Ok s => match bc_enc c s pt with Ok x => if list_eq_dec N.eq_dec x ct then true else false | Err _ => false end
  | Err _ => false end.
Definition vector (c : bcipher) (key pt ct : list N) : bool :=
  agrees c key pt ct && Nat.eqb (length pt) (bc_bs c) && forallb (fun x => x <? 2 ^ 8) (key ++ pt).
Lemma is_cipher_kat c ok E key pt ct : is_cipher c ok E -> ok key -> vector c key pt ct = true -> E key pt = ct.
Proof.
  intros C Hk V. unfold vector in V. apply andb_true_iff in V. destruct V as [V B]. apply andb_true_iff in V. destruct V as [V L].
  apply Nat.eqb_eq in L. apply (words_okb 8) in B. apply Forall_app in B. destruct B as [B1 B2].
  destruct (C key B1 Hk) as (s & Es & H). destruct (H pt (conj L B2)) as [E1 _]. unfold agrees in V. rewrite Es, E1 in V.
  destruct (list_eq_dec _ _ _) as [D|D]; [exact D|discriminate V].
Qed.
Lemma is_cipher_kat3 c ok E key pt ct pt' : is_cipher c ok E -> bytes_ok key -> ok key -> blk (bc_bs c) pt ->
  (let* s := bc_create c 0 key in let* x := bc_enc c s pt in let* y := bc_dec c s x in Ok (x, y)) = Ok (ct, pt') -> E key pt = ct.
Proof.
  intros C Hb Hk Hp V. destruct (C key Hb Hk) as (s & Es & H). destruct (H pt Hp) as [E1 E2]. rewrite Es in V. cbn [bind] in V. rewrite E1 in V. cbn [bind] in V. rewrite E2 in V. cbn [bind] in V.
  apply Ok_inj in V. exact (f_equal fst V).
Qed.
Lemma leb_same n : (n <= 5 \/ 10 < n)%nat -> Nat.leb n 5 = Nat.leb n 10.
Proof. intros H. destruct (Nat.leb_spec n 5), (Nat.leb_spec n 10); first [reflexivity|lia]. Qed.
Lemma cast_lengths_same key : cast_lengths key -> up_to 16 key /\
  forall pt, cast_full (if Nat.leb (length key) 5 then 12 else 16) key pt = cast_cipher key pt.
Proof.
  intros Hk. split; [red; destruct Hk; lia|]. intros pt. unfold cast_cipher.
  assert (E : Nat.leb (length key) 5 = Nat.leb (length key) 10) by (apply leb_same; destruct Hk; lia). rewrite E. exact eq_refl.
Qed.
Lemma cast5_published : is_cipher cast5_desc cast_lengths cast_cipher.
Proof. exact (is_cipher_some cast5_desc (up_to 16) cast_lengths _ _ cast_lengths_same cast5_rounds). Qed.
Definition cast_key80 : list N := [0x01; 0x23; 0x45; 0x67; 0x12; 0x34; 0x56; 0x78; 0x23; 0x45].
Definition cast_pt : list N := [0x01; 0x23; 0x45; 0x67; 0x89; 0xab; 0xcd; 0xef].
Lemma cast_80_check : differs cast5_desc cast_cipher cast_key80 cast_pt && forallb (fun x => x <? 2 ^ 8) (cast_key80 ++ cast_pt) = true.
Proof. vm_compute. reflexivity. Qed.
Lemma cast5_80 : exists key s pt, length key = 10%nat /\ bytes_ok key /\ bc_create cast5_desc 0 key = Ok s /\
  blk 8 pt /\ bc_enc cast5_desc s pt <> Ok (cast_cipher key pt).
Proof.
  pose proof cast_80_check as C. apply andb_true_iff in C. destruct C as [C B]. apply (words_okb 8) in B. apply Forall_app in B. destruct B as [B1 B2].
  destruct (differs_ex _ _ _ _ C) as (s & E & D). exists cast_key80, s, cast_pt.
  split; [exact eq_refl|]. split; [exact B1|]. split; [exact E|]. split; [exact (conj eq_refl B2)|exact D].
Qed.
