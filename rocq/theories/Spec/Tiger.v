(** Anderson and Biham, "Tiger: a fast new hash function" (FSE 1996). *)
From Coq Require Import NArith Arith List Bool.
From Verif Require Import Lib.Bytes Spec.Words Spec.Modes Spec.Hash Spec.TigerSbox.
Import ListNotations.
Local Open Scope N_scope.

Local Notation "x ⊞ y" := (plus_w 64 x y) (at level 50, left associativity).
Definition minus_w (w x y : N) : N := (x + 2 ^ w - y mod 2 ^ w) mod 2 ^ w.
Local Notation "x ⊟ y" := (minus_w 64 x y) (at level 50, left associativity).
Local Notation "x ⊕ y" := (N.lxor x y) (at level 45, left associativity).
(** byte [i] of a word, 0 the least significant *)
Definition byte_of (i x : N) : N := x / 256 ^ i mod 256.
Definition sbox (t : list N) (i x : N) : N := nth (N.to_nat (byte_of i x)) t 0.
(** round(a,b,c,x,mul) *)
Definition tiger_round (a b c x mul : N) : N * N * N :=
  let c := c ⊕ x in
  (a ⊟ (sbox tiger_t1 0 c ⊕ sbox tiger_t2 2 c ⊕ sbox tiger_t3 4 c ⊕ sbox tiger_t4 6 c),
   ((b ⊞ (sbox tiger_t4 1 c ⊕ sbox tiger_t3 3 c ⊕ sbox tiger_t2 5 c ⊕ sbox tiger_t1 7 c)) * mul) mod 2 ^ 64,
   c).
(** pass(a,b,c,mul): a round for every word, the registers turning *)
Fixpoint tiger_rounds (mul : N) (xs : list N) (v : N * N * N) : N * N * N :=
  match xs with
  | [] => v
  | x :: xs => let '(a, b, c) := v in let '(a, b, c) := tiger_round a b c x mul in tiger_rounds mul xs (b, c, a)
  end.
(** eight rounds leave the registers turned by 8 = 2 mod 3; turn them back *)
Definition tiger_pass (mul : N) (xs : list N) (v : N * N * N) : N * N * N :=
  let '(c, a, b) := tiger_rounds mul xs v in (a, b, c).
Definition complement (x : N) : N := x ⊕ (2 ^ 64 - 1).
Definition lsl (x n : N) : N := (x * 2 ^ n) mod 2 ^ 64.
Definition lsr (x n : N) : N := x / 2 ^ n.
(** key_schedule: the two rounds of eight assignments *)
Definition tiger_schedule (xs : list N) : list N :=
  let x j := nth j xs 0 in
  let y0 := x 0%nat ⊟ (x 7%nat ⊕ 0xA5A5A5A5A5A5A5A5) in
  let y1 := x 1%nat ⊕ y0 in
  let y2 := x 2%nat ⊞ y1 in
  let y3 := x 3%nat ⊟ (y2 ⊕ lsl (complement y1) 19) in
  let y4 := x 4%nat ⊕ y3 in
  let y5 := x 5%nat ⊞ y4 in
  let y6 := x 6%nat ⊟ (y5 ⊕ lsr (complement y4) 23) in
  let y7 := x 7%nat ⊕ y6 in
  let z0 := y0 ⊞ y7 in
  let z1 := y1 ⊟ (z0 ⊕ lsl (complement y7) 19) in
  let z2 := y2 ⊕ z1 in
  let z3 := y3 ⊞ z2 in
  let z4 := y4 ⊟ (z3 ⊕ lsr (complement z2) 23) in
  let z5 := y5 ⊕ z4 in
  let z6 := y6 ⊞ z5 in
  let z7 := y7 ⊟ (z6 ⊕ 0x0123456789ABCDEF) in
  [z0; z1; z2; z3; z4; z5; z6; z7].
(** the passes: for pass_no = 0, 1, ...: key_schedule unless pass_no is 0, pass with 5, 7, 9, 9, ..., (a,b,c) = (c,a,b) *)
Fixpoint tiger_passes (n no : nat) (xs : list N) (v : N * N * N) : N * N * N :=
  match n with
  | O => v
  | S n =>
    let xs := if (no =? 0)%nat then xs else tiger_schedule xs in
    let mul := if (no =? 0)%nat then 5 else if (no =? 1)%nat then 7 else 9 in
    let '(a, b, c) := tiger_pass mul xs v in tiger_passes n (S no) xs (c, a, b)
  end.
(** with feedforward *)
Definition tiger_compress (passes : nat) (h m : list N) : list N :=
  let h_ j := nth j h 0 in
  let '(a, b, c) := tiger_passes passes 0 (le_words 8 8 m) (h_ 0%nat, h_ 1%nat, h_ 2%nat) in
  [a ⊕ h_ 0%nat; b ⊟ h_ 1%nat; c ⊞ h_ 2%nat].
Definition tiger_h0 : list N := [0x0123456789ABCDEF; 0xFEDCBA9876543210; 0xF096A5B4C3B2E187].
(** 192 bit hash value, padding byte 1, length in the last 8 bytes, least significant first *)
Definition tiger (passes : nat) (m : list N) : list N :=
  le_string 8 (iterate 64 (tiger_compress passes) tiger_h0 (md_pad 64 8 0x01 le_bytes m)).
