(** The padding of Keccak and SHA-3 is injective, also between the two; what two messages with the same output of a sponge give. *)
From Coq Require Import NArith Arith List Bool Lia.
From Verif Require Import Lib.Word Lib.Res Lib.Bytes Lib.MemLemmas Model.HashApi Model.Keccak
  Spec.Words Spec.Modes Spec.Hash Spec.Keccak Spec.Collision Proof.MdP Proof.MdCollP Proof.HashCollP Proof.KeccakP.
Import ListNotations.
Local Open Scope nat_scope.

Section Meet.
  Variables (H J : Type) (f : H -> J -> H).
  Hypothesis dh : forall a b : H, {a = b} + {a <> b}.
  Hypothesis dj : forall a b : J, {a = b} + {a <> b}.
  Lemma returns_all iv xs : 0 < length xs -> fold_left f xs iv = iv -> returns_in f iv xs.
  Proof. intros L E. exists (length xs). rewrite firstn_all. split; [lia|exact E]. Qed.
  Lemma returns_app iv xs y : returns_in f iv xs -> returns_in f iv (xs ++ y).
  Proof. intros (i & L & E). exists i. rewrite app_length. split; [lia|]. rewrite firstn_app. replace (i - length xs) with 0 by lia. cbn [firstn]. now rewrite app_nil_r. Qed.
  Theorem meet iv xs xs' : xs <> xs' -> fold_left f xs iv = fold_left f xs' iv -> collision_in f iv xs xs' \/ returns_in f iv xs \/ returns_in f iv xs'.
  Proof.
    revert xs'. induction xs as [|x a IH] using rev_ind; intros xs' Ne E.
    - right. right. apply returns_all; [destruct xs'; [now destruct Ne|cbn; lia]|]. symmetry. exact E.
    - destruct xs' as [|x' a' _] using rev_ind; [right; left; apply returns_all; [rewrite app_length; cbn; lia|exact E]|].
      destruct (dh (fold_left f a iv) (fold_left f a' iv)) as [Eh|Nh]; [destruct (dj x x') as [Ex|Nx]|].
      + subst x'. destruct (IH a') as [C|[C|C]]; [intros ->; now apply Ne|exact Eh|left; now apply collision_app|right; left; now apply returns_app|right; right; now apply returns_app].
      + left. apply collision_last; [congruence|exact E].
      + left. apply collision_last; [congruence|exact E].
  Qed.
End Meet.

Lemma blocks_all bs : 0 < bs -> forall n l, length l = n * bs -> concat (blocks bs l) = l.
Proof.
  intros Hb. induction n as [|n IH]; intros l Hl.
  - destruct l; [|discriminate Hl]. unfold blocks. cbn [length]. now rewrite Nat.div_0_l by lia.
  - rewrite <- (firstn_skipn (n * bs) l) at 1. rewrite blocks_snoc.
    + rewrite concat_app, IH by (rewrite firstn_length; lia). cbn [concat]. rewrite app_nil_r. apply firstn_skipn.
    + lia.
    + rewrite firstn_length. replace (Nat.min (n * bs) (length l)) with (n * bs) by lia. apply Nat.mod_mul. lia.
    + rewrite skipn_length. lia.
Qed.
Lemma nth_pad rate dom m i : length m <= i -> nth i (keccak_pad rate dom m) 0%N =
  let q := (rate - length m mod rate)%nat in nth (i - length m) (if Nat.eqb q 1 then [(dom + 0x80)%N] else dom :: repeat 0%N (q - 2) ++ [0x80%N]) 0%N.
Proof. intros L. unfold keccak_pad. rewrite app_nth2 by lia. reflexivity. Qed.
Lemma kpad_length rate dom m : 0 < rate -> length (keccak_pad rate dom m) = length m + (rate - length m mod rate).
Proof.
  intros R. unfold keccak_pad. rewrite app_length. f_equal. pose proof (Nat.mod_upper_bound (length m) rate ltac:(lia)).
  destruct (Nat.eqb_spec (rate - length m mod rate) 1) as [->|]; [reflexivity|]. cbn [length]. rewrite app_length, repeat_length. cbn [length]. lia.
Qed.
Lemma pad_first rate dom m : 0 < rate -> nth (length m) (keccak_pad rate dom m) 0%N = (if Nat.eqb (rate - length m mod rate) 1 then dom + 0x80 else dom)%N.
Proof. intros R. rewrite nth_pad by lia. cbv zeta. rewrite Nat.sub_diag. destruct (Nat.eqb _ 1); reflexivity. Qed.
Lemma pad_later rate dom m i : 0 < rate -> length m < i < length (keccak_pad rate dom m) -> nth i (keccak_pad rate dom m) 0%N = (if Nat.eqb (S i) (length (keccak_pad rate dom m)) then 0x80 else 0)%N.
Proof.
  intros R L. rewrite kpad_length in * by exact R. rewrite nth_pad by lia. cbv zeta. set (q := rate - length m mod rate) in *.
  destruct (Nat.eqb_spec q 1); [lia|]. replace (i - length m) with (S (i - length m - 1)) by lia. cbn [nth].
  destruct (Nat.eqb_spec (S i) (length m + q)).
  - rewrite app_nth2 by (rewrite repeat_length; lia). rewrite repeat_length. replace (i - length m - 1 - (q - 2)) with 0 by lia. reflexivity.
  - rewrite app_nth1 by (rewrite repeat_length; lia). apply nth_repeat.
Qed.
Lemma pad_not_longer rate dom dom' m m' : 0 < rate -> (dom <> 0)%N -> keccak_pad rate dom m = keccak_pad rate dom' m' -> ~ length m' < length m.
Proof.
  intros R D E L. pose proof (pad_first rate dom m R) as P. pose proof (Nat.mod_upper_bound (length m) rate ltac:(lia)).
  assert (LE := f_equal (@length _) E). pose proof (kpad_length rate dom m R) as K.
  rewrite E in P. rewrite pad_later in P by (try exact R; lia). rewrite <- LE, K in P.
  destruct (Nat.eqb_spec (S (length m)) (length m + (rate - length m mod rate))) as [A|A]; destruct (Nat.eqb_spec (rate - length m mod rate) 1) as [B|B]; lia.
Qed.
Theorem keccak_pad_inj rate dom dom' m m' : 0 < rate -> (dom <> 0)%N -> (dom' <> 0)%N -> keccak_pad rate dom m = keccak_pad rate dom' m' -> m = m' /\ dom = dom'.
Proof.
  intros R D D' E. assert (A := pad_not_longer rate dom dom' m m' R D E). assert (B := pad_not_longer rate dom' dom m' m R D' (eq_sym E)).
  assert (L : length m = length m') by lia. pose proof (pad_first rate dom m R) as P. rewrite E, L, pad_first in P by exact R.
  split; [|destruct (Nat.eqb _ 1); lia]. assert (F : forall d x, firstn (length x) (keccak_pad rate d x) = x).
  { intros d x. unfold keccak_pad. rewrite firstn_app, firstn_all, Nat.sub_diag. cbn [firstn]. apply app_nil_r. }
  rewrite <- (F dom m), <- (F dom' m'), E, L. reflexivity.
Qed.
Theorem keccak_blocks_inj rate dom dom' m m' : 0 < rate -> (dom <> 0)%N -> (dom' <> 0)%N -> blocks rate (keccak_pad rate dom m) = blocks rate (keccak_pad rate dom' m') -> m = m' /\ dom = dom'.
Proof.
  intros R D D' E. apply (keccak_pad_inj rate dom dom' m m' R D D').
  assert (C : forall d x, concat (blocks rate (keccak_pad rate d x)) = keccak_pad rate d x).
  { intros d x. apply (blocks_all rate R (length (keccak_pad rate d x) / rate)). rewrite kpad_length by exact R.
    pose proof (Nat.div_mod (length x) rate ltac:(lia)) as Q. pose proof (Nat.mod_upper_bound (length x) rate ltac:(lia)).
    replace (length x + (rate - length x mod rate)) with (S (length x / rate) * rate) by nia. rewrite Nat.div_mul by lia. reflexivity. }
  now rewrite <- (C dom m), E, C.
Qed.
Theorem sponge_equal f b rate n dom m m' : 0 < rate -> (dom <> 0)%N -> m <> m' -> sponge f b rate dom n m = sponge f b rate dom n m' -> sponge_collision f b rate n dom m m'.
Proof.
  intros R D Ne E. unfold sponge_collision. cbv zeta. set (xs := blocks rate _). set (xs' := blocks rate (keccak_pad rate dom m')). set (iv := repeat 0%N b).
  assert (Nx : xs <> xs') by (intros C; apply Ne; apply (keccak_blocks_inj rate dom dom m m' R D D C)).
  destruct (list_dec (fold_left (absorb_step f) xs iv) (fold_left (absorb_step f) xs' iv)) as [S|S].
  - destruct (meet _ _ (absorb_step f) list_dec list_dec iv xs xs' Nx S) as [C|[C|C]]; auto.
  - right. right. right. split; [exact S|exact E].
Qed.
Lemma squeeze_firstn f rate n cap S : n <= cap -> firstn n (squeeze f rate cap S) = squeeze f rate n S.
Proof.
  intros L. unfold squeeze. replace cap with (n + (cap - n)) by lia. rewrite seq_app, map_app, firstn_app, map_length, seq_length, Nat.sub_diag.
  cbn [firstn]. rewrite app_nil_r. apply firstn_all2. rewrite map_length, seq_length. lia.
Qed.
Theorem computes_sponge d r n cap f b rate dom m m' : computes d r [] n cap (fun _ => True) (sponge f b rate dom cap) -> n <= cap -> 0 < rate -> (dom <> 0)%N -> bytes_ok m -> bytes_ok m' -> m <> m' ->
  hash_all d r [] m n = hash_all d r [] m' n -> sponge_collision f b rate n dom m m'.
Proof.
  intros C L R D B B' Ne E. assert (A : forall x, bytes_ok x -> hash_all d r [] x n = Ok (sponge f b rate dom n x)).
  { intros x Bx. destruct (C [x] (Forall_cons _ Bx (Forall_nil _)) I) as [_ Q]. cbn [concat] in Q. rewrite app_nil_r in Q. rewrite Q. unfold sponge. now rewrite squeeze_firstn. }
  rewrite (A m B), (A m' B') in E. apply Ok_inj in E. exact (sponge_equal f b rate n dom m m' R D Ne E).
Qed.
Theorem sha3_equal r n m m' : (r <= 48)%N -> n <= 64 -> bytes_ok m -> bytes_ok m' -> m <> m' ->
  hash_all hash_sha3 r [] m n = hash_all hash_sha3 r [] m' n -> sponge_collision (keccak_bytes 8 (round_constant 64) (N.to_nat (rounds_of 24 r))) 200 (200 - 2 * n) n 6 m m'.
Proof. intros Hr Hn. apply (computes_sponge hash_sha3 r n 64); [exact (sha3_computes r n Hr Hn)|exact Hn|lia|discriminate]. Qed.
Theorem keccak1600_equal r n m m' : (r <= 48)%N -> n < 100 -> bytes_ok m -> bytes_ok m' -> m <> m' ->
  hash_all hash_keccak1600 r [] m n = hash_all hash_keccak1600 r [] m' n -> sponge_collision (keccak_bytes 8 (round_constant 64) (N.to_nat (rounds_of 24 r))) 200 (200 - 2 * n) n 1 m m'.
Proof. intros Hr Hn. apply (computes_sponge hash_keccak1600 r n n); [exact (keccak1600_computes r n n Hr Hn (le_n n))|lia|lia|discriminate]. Qed.
Theorem keccak800_equal r n m m' : (r <= 40)%N -> n < 50 -> bytes_ok m -> bytes_ok m' -> m <> m' ->
  hash_all hash_keccak800 r [] m n = hash_all hash_keccak800 r [] m' n -> sponge_collision (keccak_bytes 4 folded_constant (N.to_nat (rounds_of 20 r))) 100 (100 - 2 * n) n 1 m m'.
Proof. intros Hr Hn. apply (computes_sponge hash_keccak800 r n n); [exact (keccak800_computes r n n Hr Hn (le_n n))|lia|lia|discriminate]. Qed.
