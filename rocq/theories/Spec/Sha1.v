(** FIPS 180-4: SHA-1. *)
From Coq Require Import NArith Arith List Bool.
From Verif Require Import Lib.Bytes Spec.Words Spec.Modes Spec.Hash Spec.Sha2.
Import ListNotations.
Local Open Scope N_scope.

Local Notation "x ⊞ y" := (plus_w 32 x y) (at level 50, left associativity).
(** 4.1.1 *)
Definition sha1_f (t : nat) : N -> N -> N -> N :=
  if (t <? 20)%nat then Ch 32 else if (t <? 40)%nat then xor3 else if (t <? 60)%nat then Maj else xor3.
(** 4.2.1: the first 32 bits of the square roots of 2, 3, 5 and 10 (with two bits before the point) *)
Definition sha1_k (t : nat) : N :=
  let sqrt n := root 2 (n * 2 ^ 60) 32 0 in
  if (t <? 20)%nat then sqrt 2 else if (t <? 40)%nat then sqrt 3 else if (t <? 60)%nat then sqrt 5 else sqrt 10.
(** 6.1.2, step 1 *)
Fixpoint sha1_schedule (n : nat) (ws : list N) : list N :=
  match n with
  | O => ws
  | S n =>
    let W k := nth (length ws - k) ws 0 in
    sha1_schedule n (ws ++ [rotl 32 (N.lxor (xor3 (W 3%nat) (W 8%nat) (W 14%nat)) (W 16%nat)) 1])
  end.
(** step 3 *)
Definition sha1_step (t : nat) (wt : N) (v : list N) : list N :=
  match v with
  | [a; b; c; d; e] =>
    let T := rotl 32 a 5 ⊞ sha1_f t b c d ⊞ e ⊞ sha1_k t ⊞ wt in
    [T; a; rotl 32 b 30; c; d]
  | _ => v
  end.
Definition sha1_compress (h m : list N) : list N :=
  let ws := sha1_schedule 64 (be_words 4 16 m) in
  let v := fold_left (fun v t => sha1_step t (nth t ws 0) v) (seq 0 80) h in
  map (fun q => fst q ⊞ snd q) (combine h v).
Definition sha1_h0 : list N := [0x67452301; 0xefcdab89; 0x98badcfe; 0x10325476; 0xc3d2e1f0].
Definition sha1 (m : list N) : list N := be_string 4 (iterate 64 sha1_compress sha1_h0 (md_pad 64 8 0x80 be_bytes m)).
