(** RFC 1321: MD5.  The table T is computed from its definition. *)
From Coq Require Import NArith ZArith Arith List Bool.
From Verif Require Import Lib.Bytes Spec.Words Spec.Modes Spec.Hash Spec.Sha2.
Import ListNotations.
Local Open Scope N_scope.

(** sin and cos in fixed point with 128 binary places: the series for 1 (40 terms), then addition of angles *)
Fixpoint series (n : nat) (k : Z) (term : Z) : Z * Z :=   (* sums of the even and the odd terms x^k/k! of exp(i) *)
  match n with
  | O => (0, 0)%Z
  | S n => let (e, o) := series n (k + 1) (term / (k + 1)) in (term - o, e)%Z
  end.
(** [series n 0 1] = (cos 1, sin 1): c_k = t_k - s_(k+1), s_k = c_(k+1) *)
Definition one128 : Z := (2 ^ 128)%Z.
Definition cis1 : Z * Z := series 40 0 one128.
Definition turn1 (p : Z * Z) : Z * Z :=
  let (c, s) := p in let (c1, s1) := cis1 in ((c * c1 - s * s1) / one128, (s * c1 + c * s1) / one128)%Z.
Fixpoint sines (n : nat) (p : Z * Z) : list Z :=
  match n with O => [] | S n => let q := turn1 p in snd q :: sines n q end.
(** 3.4: the integer part of 4294967296 times abs(sin(i)), i = 1 .. 64 *)
Definition md5_t : list N := map (fun s => Z.to_N (Z.abs s / 2 ^ 96)) (sines 64 (one128, 0%Z)).

Local Notation "x ⊞ y" := (plus_w 32 x y) (at level 50, left associativity).
(** 3.4 *)
Definition md5_f (round : nat) (x y z : N) : N :=
  match round with
  | O => N.lor (N.land x y) (N.land (not_w 32 x) z)
  | 1%nat => N.lor (N.land x z) (N.land y (not_w 32 z))
  | 2%nat => xor3 x y z
  | _ => N.lxor y (N.lor x (not_w 32 z))
  end.
(** the message word of step [i] (from 0): X[k] in the rows of section 3.4 *)
Definition md5_x (i : nat) : nat :=
  nth i [0; 1; 2; 3; 4; 5; 6; 7; 8; 9; 10; 11; 12; 13; 14; 15;
         1; 6; 11; 0; 5; 10; 15; 4; 9; 14; 3; 8; 13; 2; 7; 12;
         5; 8; 11; 14; 1; 4; 7; 10; 13; 0; 3; 6; 9; 12; 15; 2;
         0; 7; 14; 5; 12; 3; 10; 1; 8; 15; 6; 13; 4; 11; 2; 9]%nat 0%nat.
Definition md5_s (i : nat) : N :=
  nth (i mod 4) (nth (i / 16) [[7; 12; 17; 22]; [5; 9; 14; 20]; [4; 11; 16; 23]; [6; 10; 15; 21]] []) 0.
(** [abcd k s i]: a = b + ((a + F(b,c,d) + X[k] + T[i]) <<< s), then the next step with d, a, b, c for a, b, c, d *)
Definition md5_step (i : nat) (x v : list N) : list N :=
  match v with
  | [a; b; c; d] =>
    let a := b ⊞ rotl 32 (a ⊞ md5_f (i / 16) b c d ⊞ nth (md5_x i) x 0 ⊞ nth i md5_t 0) (md5_s i) in
    [d; a; b; c]
  | _ => v
  end.
Definition md5_compress (h m : list N) : list N :=
  let x := le_words 4 16 m in
  let v := fold_left (fun v i => md5_step i x v) (seq 0 64) h in
  map (fun q => fst q ⊞ snd q) (combine h v).
Definition md5_h0 : list N := [0x67452301; 0xefcdab89; 0x98badcfe; 0x10325476].
Definition md5 (m : list N) : list N := le_string 4 (iterate 64 md5_compress md5_h0 (md_pad 64 8 0x80 le_bytes m)).
