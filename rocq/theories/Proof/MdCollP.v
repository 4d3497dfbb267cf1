(** Merkle-Damgard: the padding is injective, and a collision of the hash is a collision of the compression function. *)
From Coq Require Import NArith Arith List Bool Lia.
From Verif Require Import Lib.Word Lib.Res Lib.Bytes Lib.MemLemmas Spec.Words Spec.Modes Spec.Hash Spec.Collision Proof.MdP.
Import ListNotations.
Local Open Scope nat_scope.

(** ** iterated functions *)
Section Gen.
  Variables (H J : Type) (f : H -> J -> H).
  Hypothesis dh : forall a b : H, {a = b} + {a <> b}.
  Hypothesis dj : forall a b : J, {a = b} + {a <> b}.
  Lemma collision_last iv a x a' x' : (fold_left f a iv, x) <> (fold_left f a' iv, x') -> fold_left f (a ++ [x]) iv = fold_left f (a' ++ [x']) iv -> collision_in f iv (a ++ [x]) (a' ++ [x']).
  Proof.
    intros Ne E. exists (length a), (length a'), x, x'. rewrite !nth_error_app2, !Nat.sub_diag by lia. split; [reflexivity|]. split; [reflexivity|].
    rewrite !firstn_app, !firstn_all, !Nat.sub_diag. cbn [firstn]. rewrite !app_nil_r. split; [exact Ne|]. rewrite !fold_left_app in E. exact E.
  Qed.
  Lemma collision_app iv a y a' y' : collision_in f iv a a' -> collision_in f iv (a ++ y) (a' ++ y').
  Proof.
    intros (i & i' & x & x' & N1 & N2 & Ne & E). exists i, i', x, x'.
    assert (L : i < length a) by (apply nth_error_Some; congruence). assert (L' : i' < length a') by (apply nth_error_Some; congruence).
    rewrite !nth_error_app1 by assumption. split; [exact N1|]. split; [exact N2|].
    rewrite !firstn_app. replace (i - length a) with 0 by lia. replace (i' - length a') with 0 by lia. cbn [firstn]. rewrite !app_nil_r. now split.
  Qed.
  Lemma collision_same iv xs xs' : length xs = length xs' -> xs <> xs' -> fold_left f xs iv = fold_left f xs' iv -> collision_in f iv xs xs'.
  Proof.
    revert xs'. induction xs as [|x a IH] using rev_ind; intros xs' L Ne E; [destruct xs'; [now destruct Ne|discriminate L]|].
    destruct xs' as [|x' a' _] using rev_ind; [rewrite app_length in L; cbn in L; lia|].
    rewrite !app_length in L. cbn [length] in L.
    destruct (dh (fold_left f a iv) (fold_left f a' iv)) as [Eh|Nh]; [destruct (dj x x') as [Ex|Nx]|].
    - subst x'. apply collision_app. apply IH; [lia| |exact Eh]. intros ->. now apply Ne.
    - apply collision_last; [congruence|exact E].
    - apply collision_last; [congruence|exact E].
  Qed.
  (** inputs whose last one tells the number of them *)
  Theorem collision_find a x a' x' iv : (x = x' -> length a = length a') -> a ++ [x] <> a' ++ [x'] -> fold_left f (a ++ [x]) iv = fold_left f (a' ++ [x']) iv -> collision_in f iv (a ++ [x]) (a' ++ [x']).
  Proof.
    intros Hx Ne E. destruct (dj x x') as [Ex|Nx]; [|apply collision_last; [congruence|exact E]].
    apply collision_same; [|exact Ne|exact E]. rewrite !app_length, (Hx Ex). reflexivity.
  Qed.
End Gen.
Lemma list_dec (a b : list N) : {a = b} + {a <> b}. Proof. apply (list_eq_dec N.eq_dec). Qed.

Section Pad.
  Variables (bs lb : nat) (first : N) (enc : nat -> N -> list N).
  Hypothesis Hb : 0 < lb < bs.
  Hypothesis Hfirst : (first < 256)%N.
  Hypothesis Henc : forall x, blk lb (enc lb x).
  Hypothesis Hinj : forall x y, (x < 256 ^ N.of_nat lb)%N -> (y < 256 ^ N.of_nat lb)%N -> enc lb x = enc lb y -> x = y.
  Let pad := md_pad bs lb first enc.
  Definition fits_len (m : list N) : Prop := (8 * N.of_nat (length m) < 256 ^ N.of_nat lb)%N.

  Lemma pad_length m : length (pad m) mod bs = 0 /\ length m + 1 + lb <= length (pad m).
  Proof.
    unfold pad, md_pad. rewrite !app_length, repeat_length. destruct (Henc (8 * N.of_nat (length m))) as [-> _]. cbn [length].
    split; [|lia]. set (l := length m). assert (D := Nat.div_mod l bs ltac:(lia)). assert (M := Nat.mod_upper_bound l bs ltac:(lia)).
    set (q := l / bs) in *. set (a := l mod bs) in *.
    assert (E := Nat.div_mod (2 * bs - lb - 1 - a) bs ltac:(lia)). set (z := (2 * bs - lb - 1 - a) mod bs) in *. set (w := (2 * bs - lb - 1 - a) / bs) in *.
    destruct w as [|[|w]].
    - symmetry. apply (Nat.mod_unique _ bs (q + 2)); [lia|]. nia.
    - symmetry. apply (Nat.mod_unique _ bs (q + 1)); [lia|]. nia.
    - exfalso. nia.
  Qed.
  Lemma pad_bytes m : bytes_ok m -> bytes_ok (pad m).
  Proof.
    intros H. unfold pad, md_pad. apply Forall_app. split; [exact H|]. constructor; [exact Hfirst|]. apply Forall_app. split; [|apply Henc].
    apply Forall_forall. intros x Hx. apply repeat_spec in Hx. now subst.
  Qed.
  (** the last bytes are the length *)
  Lemma pad_tail m : skipn (length (pad m) - lb) (pad m) = enc lb (8 * N.of_nat (length m)).
  Proof.
    unfold pad, md_pad. rewrite !app_assoc. set (x := (m ++ [first]) ++ _). rewrite app_length. destruct (Henc (8 * N.of_nat (length m))) as [-> _].
    replace (length x + lb - lb) with (length x) by lia. rewrite skipn_app, skipn_all, Nat.sub_diag. reflexivity.
  Qed.
  Lemma pad_inj m m' : fits_len m -> fits_len m' -> pad m = pad m' -> m = m'.
  Proof.
    intros Hm Hm' E. assert (T := pad_tail m). rewrite E, pad_tail in T. apply Hinj in T; [|exact Hm'|exact Hm].
    assert (L : length m = length m') by lia. unfold pad, md_pad in E. rewrite L in E.
    apply (f_equal (firstn (length m'))) in E. rewrite <- L in E at 1. rewrite !firstn_app, !firstn_all, L, !Nat.sub_diag in E. cbn [firstn] in E.
    now rewrite !app_nil_r in E.
  Qed.

  Lemma pad_same m m' : length m = length m' -> length (pad m) = length (pad m').
  Proof. intros L. unfold pad, md_pad. rewrite !app_length, !repeat_length, !(proj1 (Henc _)), L. reflexivity. Qed.
  Lemma blocks_concat n l : length l = n * bs -> concat (blocks bs l) = l.
  Proof.
    revert l. induction n as [|n IH]; intros l Hl.
    - destruct l; [|discriminate Hl]. unfold blocks. cbn [length]. now rewrite Nat.div_0_l by lia.
    - rewrite <- (firstn_skipn (n * bs) l) at 1. rewrite blocks_snoc.
      + rewrite concat_app, IH by (rewrite firstn_length; lia). cbn [concat]. rewrite app_nil_r. apply firstn_skipn.
      + lia.
      + rewrite firstn_length. replace (Nat.min (n * bs) (length l)) with (n * bs) by lia. apply Nat.mod_mul. lia.
      + rewrite skipn_length. lia.
  Qed.
  Lemma pad_blocks m : concat (blocks bs (pad m)) = pad m.
  Proof.
    destruct (pad_length m) as [E _]. apply (blocks_concat (length (pad m) / bs)). rewrite Nat.mul_comm. apply Nat.div_exact; [lia|exact E].
  Qed.
  Lemma pad_blocks_inj m m' : fits_len m -> fits_len m' -> blocks bs (pad m) = blocks bs (pad m') -> m = m'.
  Proof. intros Hm Hm' E. apply pad_inj; [exact Hm|exact Hm'|]. now rewrite <- pad_blocks, E, pad_blocks. Qed.

  Variables (compress : list N -> list N -> list N) (hok : list N -> Prop).
  Hypothesis Hok : forall h b, hok h -> blk bs b -> hok (compress h b).

  Lemma fold_ok l h : hok h -> Forall (blk bs) l -> hok (fold_left compress l h).
  Proof. intros Hh Hl. revert h Hh. induction Hl as [|b t Hb1 Ht IH]; intros h Hh; [exact Hh|]. cbn [fold_left]. apply IH. now apply Hok. Qed.
  Lemma blocks_blk l : bytes_ok l -> Forall (blk bs) (blocks bs l).
  Proof.
    intros Hl. apply Forall_forall. intros b H. unfold blocks in H. apply in_map_iff in H. destruct H as (i & <- & Hi). apply in_seq in Hi.
    unfold block. split; [|now apply bytes_slice]. apply length_slice. assert (A := Nat.mul_div_le (length l) bs ltac:(lia)). nia.
  Qed.
  Lemma pad_last m : exists l b, pad m = l ++ b /\ length l mod bs = 0 /\ length b = bs /\ skipn (bs - lb) b = enc lb (8 * N.of_nat (length m)).
  Proof.
    destruct (pad_length m) as [M P]. exists (firstn (length (pad m) - bs) (pad m)), (skipn (length (pad m) - bs) (pad m)).
    assert (B : bs <= length (pad m)). { destruct (Nat.le_gt_cases bs (length (pad m))) as [H|H]; [exact H|]. rewrite Nat.mod_small in M by exact H. lia. }
    split; [symmetry; apply firstn_skipn|]. split; [|split].
    - rewrite firstn_length. replace (Nat.min (length (pad m) - bs) (length (pad m))) with (length (pad m) - bs) by lia.
      rewrite <- (Nat.mod_add (length (pad m) - bs) 1 bs) by lia. replace (length (pad m) - bs + 1 * bs) with (length (pad m)) by lia. exact M.
    - rewrite skipn_length. lia.
    - rewrite skipn_skipn. replace (bs - lb + (length (pad m) - bs)) with (length (pad m) - lb) by lia. apply pad_tail.
  Qed.
  Lemma hash_collision iv m m' : fits_len m -> fits_len m' -> m <> m' ->
    iterate bs compress iv (pad m) = iterate bs compress iv (pad m') -> collision_in compress iv (blocks bs (pad m)) (blocks bs (pad m')).
  Proof.
    intros Fm Fm' Ne E. unfold iterate in E.
    assert (Nb : blocks bs (pad m) <> blocks bs (pad m')) by (intros C; apply Ne; now apply pad_blocks_inj).
    assert (PS := pad_same m m'). assert (LB : forall x, length (blocks bs x) = length x / bs) by (intros x; unfold blocks; now rewrite map_length, seq_length).
    destruct (pad_last m) as (l & b & P & Ml & Lb & T). destruct (pad_last m') as (l' & b' & P' & Ml' & Lb' & T').
    rewrite P, P' in *. rewrite !blocks_snoc in * by (assumption || lia).
    apply (collision_find _ _ compress list_dec list_dec); [|exact Nb|exact E].
    intros ->. rewrite T in T'. apply Hinj in T'; [|exact Fm|exact Fm']. rewrite !LB. rewrite !app_length in PS.
    f_equal. assert (length m = length m') as L by lia. specialize (PS L). lia.
  Qed.
End Pad.

Lemma le_bytes_inj n x y : (x < 256 ^ N.of_nat n)%N -> (y < 256 ^ N.of_nat n)%N -> le_bytes n x = le_bytes n y -> x = y.
Proof. intros Hx Hy E. apply (f_equal le_val) in E. now rewrite !le_val_bytes, !N.mod_small in E. Qed.
Lemma be_bytes_inj n x y : (x < 256 ^ N.of_nat n)%N -> (y < 256 ^ N.of_nat n)%N -> be_bytes n x = be_bytes n y -> x = y.
Proof. intros Hx Hy E. apply (f_equal be_val) in E. now rewrite !be_val_bytes, !N.mod_small in E. Qed.
(** words are determined by their bytes *)
Lemma string_inj k (enc : nat -> N -> list N) l l' : (forall x, length (enc k x) = k) ->
  (forall x y, (x < 256 ^ N.of_nat k)%N -> (y < 256 ^ N.of_nat k)%N -> enc k x = enc k y -> x = y) ->
  Forall (fun x => (x < 256 ^ N.of_nat k)%N) l -> Forall (fun x => (x < 256 ^ N.of_nat k)%N) l' -> length l = length l' ->
  flat_map (enc k) l = flat_map (enc k) l' -> l = l'.
Proof.
  intros He Hi Hl. revert l'. induction Hl as [|x t Hx Ht IH]; intros l' Hl' L E; [now destruct l'|].
  destruct l' as [|y u]; [discriminate L|]. cbn [length] in L. injection L as L. inversion Hl' as [|? ? Hy Hu]; subst.
  cbn [flat_map] in E.
  assert (F : forall z v, firstn k (enc k z ++ v) = enc k z /\ skipn k (enc k z ++ v) = v).
  { intros z v. pose proof (He z) as Q. split.
    - rewrite firstn_app, Q, Nat.sub_diag, firstn_all2 by (rewrite Q; lia). apply app_nil_r.
    - rewrite skipn_app, Q, Nat.sub_diag, skipn_all2 by (rewrite Q; lia). reflexivity. }
  assert (E1 := f_equal (firstn k) E). assert (E2 := f_equal (skipn k) E).
  rewrite !(proj1 (F _ _)) in E1. rewrite !(proj2 (F _ _)) in E2.
  f_equal; [now apply Hi|now apply IH].
Qed.
