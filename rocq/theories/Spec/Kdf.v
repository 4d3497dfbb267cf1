(** PBKDF2 (RFC 8018) and scrypt (RFC 7914). *)
From Coq Require Import NArith Arith List Bool.
From Verif Require Import Lib.Res Lib.Bytes Spec.Words Spec.Modes Spec.Salsa20 Model.MacApi Spec.Mac Spec.Ae.
Import ListNotations.
Local Open Scope N_scope.

(** RFC 8018, 5.2: [prf] with the password inside, [h] bytes per block, [c] iterations *)
Section Pbkdf2.
  Variables (prf : list N -> list N) (h : nat) (c : N) (salt : list N).
  (** [u] xor [prf u] xor ..., [k] applications *)
  Fixpoint pb_sum (k : nat) (u : list N) : list N := match k with O => u | S k => xor_bytes u (pb_sum k (prf u)) end.
  (** step 3: F (P, S, c, i) *)
  Definition pb_block (i : nat) : list N := pb_sum (N.to_nat (c - 1)) (prf (salt ++ be_bytes 4 (N.of_nat i))).
  (** steps 2 and 4 *)
  Definition pb_blocks (len : nat) : nat := (len + h - 1) / h.
  Definition pbkdf2_key (len : nat) : list N := firstn len (concat (map pb_block (seq 1 (pb_blocks len)))).
End Pbkdf2.

(** RFC 7914.  Section 3: Salsa20/8 on 64 bytes *)
Definition salsa8 (b : list N) : list N := salsa_hash 8 (le_words 4 16 b).
(** section 4: the blocks of 64 bytes, their chain, first those with even and then those with odd numbers *)
Definition blocks64 (n : nat) (b : list N) : list (list N) := map (fun i => slice (64 * i) 64 b) (seq 0 n).
Fixpoint mix_chain (x : list N) (bs : list (list N)) : list (list N) :=
  match bs with [] => [] | b :: bs => let x := salsa8 (xor_bytes x b) in x :: mix_chain x bs end.
Definition block_mix (r : nat) (b : list N) : list N :=
  let y := mix_chain (slice (64 * (2 * r - 1)) 64 b) (blocks64 (2 * r) b) in
  concat (map (fun i => nth (2 * i) y []) (seq 0 r)) ++ concat (map (fun i => nth (2 * i + 1) y []) (seq 0 r)).
(** section 5: the saved blocks, and the second loop; Integerify is the number in the last 64 bytes *)
Fixpoint mix_save (r n : nat) (x : list N) : list (list N) * list N :=
  match n with O => ([], x) | S n => let p := mix_save r n (block_mix r x) in (x :: fst p, snd p) end.
Definition integerify (r : nat) (x : list N) (n : N) : nat := N.to_nat (le_val (slice (64 * (2 * r - 1)) 64 x) mod n).
Fixpoint mix_use (r : nat) (n : N) (v : list (list N)) (k : nat) (x : list N) : list N :=
  match k with O => x | S k => mix_use r n v k (block_mix r (xor_bytes x (nth (integerify r x n) v []))) end.
Definition ro_mix (r : nat) (n : N) (b : list N) : list N :=
  let p := mix_save r (N.to_nat n) b in mix_use r n (fst p) (N.to_nat n) (snd p).
(** section 6 *)
Definition scrypt_key (prf : list N -> list N) (h : nat) (n : N) (r p : nat) (salt : list N) (len : nat) : list N :=
  let b := pbkdf2_key prf h 1 salt (128 * r * p) in
  pbkdf2_key prf h 1 (concat (map (fun i => ro_mix r n (slice (128 * r * i) (128 * r) b)) (seq 0 p))) len.

(** An object for this key, made and remade with the same arguments and used between *)
Inductive mac_kept (d : mac) (r : N) (key : list N) (n : nat) : mc_st d -> Prop :=
| mk_new m : mac_create d r key n = Ok m -> mac_kept d r key n m
| mk_used m m' : mac_kept d r key n m -> mac_used d m m' -> mac_kept d r key n m'
| mk_again m m' : mac_kept d r key n m -> mac_recreate d m r key n = Ok m' -> mac_kept d r key n m'.
(** [T] are the tags of such objects *)
Definition mac_steady (d : mac) (r : N) (key : list N) (n : nat) (okl : list nat -> Prop) (okm : nat -> Prop) (T : list N -> list N) : Prop :=
  mac_gives d (mac_create d r key n) okl okm T /\
  forall m, mac_kept d r key n m -> mac_gives d (mac_recreate d m r key n) okl okm T.

(** The saved blocks that are used *)
Fixpoint mix_draws (r : nat) (n : N) (v : list (list N)) (k : nat) (x : list N) : list nat :=
  match k with O => [] | S k => let j := integerify r x n in j :: mix_draws r n v k (block_mix r (xor_bytes x (nth j v []))) end.
Definition ro_draws (r : nat) (n : N) (b : list N) : list nat := let p := mix_save r (N.to_nat n) b in mix_draws r n (fst p) (N.to_nat n) (snd p).
(** ... for the [p] parts of scrypt *)
Definition scrypt_draws (prf : list N -> list N) (h : nat) (n : N) (r p : nat) (salt : list N) : list nat :=
  let b := pbkdf2_key prf h 1 salt (128 * r * p) in concat (map (fun i => ro_draws r n (slice (128 * r * i) (128 * r) b)) (seq 0 p)).
