(** FIPS 180-4: SHA-224, SHA-256, SHA-384, SHA-512.  The constants are computed from their definition (fractional
    parts of square and cube roots of primes). *)
From Coq Require Import NArith Arith List Bool.
From Verif Require Import Lib.Bytes Spec.Words Spec.Modes Spec.Hash.
Import ListNotations.
Local Open Scope N_scope.

(** the primes below 1000: not divisible by a smaller number below 32 *)
Definition is_prime (n : N) : bool :=
  forallb (fun d => (n <=? d) || negb (n mod d =? 0)) (map N.of_nat (seq 2 30)).
Definition primes : list N := filter is_prime (map N.of_nat (seq 2 998)).
(** the largest [x] below [2^b] (added to [x]) with [x^k <= n] *)
Fixpoint root (k n : N) (b : nat) (x : N) : N :=
  match b with
  | O => x
  | S b => let y := x + 2 ^ N.of_nat b in root k n b (if y ^ k <=? n then y else x)
  end.
(** the first [w] bits of the fractional part of the [k]-th root of [n < 1000] *)
Definition frac_root (k w n : N) : N := root k (n * 2 ^ (k * w)) (N.to_nat w + 5) 0 mod 2 ^ w.

(** 4.1.2, 4.1.3, 4.2.2, 4.2.3 *)
Record sha2_fn := {
  f_w : N;
  f_k : list N;
  f_Sigma0 : N -> N; f_Sigma1 : N -> N; f_sigma0 : N -> N; f_sigma1 : N -> N }.
Definition xor3 (a b c : N) : N := N.lxor a (N.lxor b c).
Definition f256 : sha2_fn := {|
  f_w := 32;
  f_k := map (frac_root 3 32) (firstn 128 primes);
  f_Sigma0 x := xor3 (rotr 32 x 2) (rotr 32 x 13) (rotr 32 x 22);
  f_Sigma1 x := xor3 (rotr 32 x 6) (rotr 32 x 11) (rotr 32 x 25);
  f_sigma0 x := xor3 (rotr 32 x 7) (rotr 32 x 18) (shr x 3);
  f_sigma1 x := xor3 (rotr 32 x 17) (rotr 32 x 19) (shr x 10) |}.
Definition f512 : sha2_fn := {|
  f_w := 64;
  f_k := map (frac_root 3 64) (firstn 160 primes);
  f_Sigma0 x := xor3 (rotr 64 x 28) (rotr 64 x 34) (rotr 64 x 39);
  f_Sigma1 x := xor3 (rotr 64 x 14) (rotr 64 x 18) (rotr 64 x 41);
  f_sigma0 x := xor3 (rotr 64 x 1) (rotr 64 x 8) (shr x 7);
  f_sigma1 x := xor3 (rotr 64 x 19) (rotr 64 x 61) (shr x 6) |}.
Definition not_w (w x : N) : N := 2 ^ w - 1 - x.
Definition Ch (w x y z : N) : N := N.lxor (N.land x y) (N.land (not_w w x) z).
Definition Maj (x y z : N) : N := xor3 (N.land x y) (N.land x z) (N.land y z).

Section Sha2.
  Variable f : sha2_fn.
  Let w := f_w f.
  Notation "x ⊞ y" := (plus_w w x y) (at level 50, left associativity).
  (** 6.2.2, 6.4.2, step 1: [n] more words after the list [ws] *)
  Fixpoint schedule (n : nat) (ws : list N) : list N :=
    match n with
    | O => ws
    | S n =>
      let W k := nth (length ws - k) ws 0 in
      schedule n (ws ++ [f_sigma1 f (W 2%nat) ⊞ W 7%nat ⊞ f_sigma0 f (W 15%nat) ⊞ W 16%nat])
    end.
  (** step 3 *)
  Definition sha2_step (k wt : N) (v : list N) : list N :=
    match v with
    | [a; b; c; d; e; f_; g; h] =>
      let T1 := h ⊞ f_Sigma1 f e ⊞ Ch w e f_ g ⊞ k ⊞ wt in
      let T2 := f_Sigma0 f a ⊞ Maj a b c in
      [T1 ⊞ T2; a; b; c; d ⊞ T1; e; f_; g]
    | _ => v
    end.
  Definition sha2_steps (ks ws v : list N) : list N := fold_left (fun v q => sha2_step (fst q) (snd q) v) (combine ks ws) v.
  (** one block with [n] rounds, 64 or 80 in the standard *)
  Definition sha2_compress (n : nat) (h m : list N) : list N :=
    let ws := schedule (n - 16) (be_words (N.to_nat (w / 8)) 16 m) in
    map (fun q => fst q ⊞ snd q) (combine h (sha2_steps (firstn n (f_k f)) ws h)).
End Sha2.

(** 5.3 *)
Definition iv256 : list N := map (frac_root 2 32) (firstn 8 primes).
Definition iv512 : list N := map (frac_root 2 64) (firstn 8 primes).
Definition iv384 : list N := map (frac_root 2 64) (firstn 8 (skipn 8 primes)).
Definition iv224 : list N := map (fun x => x mod 2 ^ 32) iv384.
(** 5.1, 6 *)
Definition sha2_32 (n : nat) (iv m : list N) : list N := be_string 4 (iterate 64 (sha2_compress f256 n) iv (md_pad 64 8 0x80 be_bytes m)).
Definition sha2_64 (n : nat) (iv m : list N) : list N := be_string 8 (iterate 128 (sha2_compress f512 n) iv (md_pad 128 16 0x80 be_bytes m)).
Definition sha256 (m : list N) : list N := sha2_32 64 iv256 m.
Definition sha224 (m : list N) : list N := firstn 28 (sha2_32 64 iv224 m).
Definition sha512 (m : list N) : list N := sha2_64 80 iv512 m.
Definition sha384 (m : list N) : list N := firstn 48 (sha2_64 80 iv384 m).
