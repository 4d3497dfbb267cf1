(** Barreto and Rijmen, "The Whirlpool hashing function" (ISO/IEC 10118-3).  The S-box, the diffusion matrix and the
    round constants are computed from their definition; the state is a list of 64 bytes, row after row. *)
From Coq Require Import NArith Arith List Bool.
From Verif Require Import Lib.Bytes Spec.Words Spec.Modes Spec.Hash Spec.Gf.
Import ListNotations.
Local Open Scope N_scope.

(** multiplication in GF(2^8) modulo x^8 + x^4 + x^3 + x^2 + 1 *)
Definition wgf (x y : N) : N := gf_mul 0x11D x y.

(** the mini-boxes E, its inverse, and R, and the S-box built of them *)
Definition box_E : list N := [0x1; 0xB; 0x9; 0xC; 0xD; 0x6; 0xF; 0x3; 0xE; 0x8; 0x7; 0x4; 0xA; 0x2; 0x5; 0x0].
Definition box_R : list N := [0x7; 0xC; 0xB; 0xD; 0xE; 0x4; 0x9; 0xF; 0x6; 0x3; 0x8; 0xA; 0x2; 0x5; 0x1; 0x0].
Definition ap (t : list N) (x : N) : N := nth (N.to_nat x) t 0.
Definition inv_E (y : N) : N := hd 0 (filter (fun x => ap box_E x =? y) (map N.of_nat (seq 0 16))).
Definition sbox8 (x : N) : N :=
  let u := ap box_E (x / 16) in let l := inv_E (x mod 16) in
  let r := ap box_R (N.lxor u l) in
  16 * ap box_E (N.lxor u r) + inv_E (N.lxor l r).
Definition whirlpool_sbox : list N := map (fun i => sbox8 (N.of_nat i)) (seq 0 256).
Definition S_ (x : N) : N := nth (N.to_nat x) whirlpool_sbox 0.

(** entry in row [i], column [j] *)
Definition el (a : list N) (i j : nat) : N := nth (8 * i + j) a 0.
Definition matrix (f : nat -> nat -> N) : list N := map (fun n => f (n / 8)%nat (n mod 8)%nat) (seq 0 64).
(** SubBytes, ShiftColumns, MixRows, AddRoundKey *)
Definition gamma (a : list N) : list N := map S_ a.
Definition pi_ (a : list N) : list N := matrix (fun i j => el a ((i + 8 - j) mod 8) j).
Definition cir (i j : nat) : N := nth ((j + 8 - i) mod 8) [1; 1; 4; 1; 8; 5; 2; 9] 0.
Definition sum8 (f : nat -> N) : N := fold_left N.lxor (map f (seq 0 8)) 0.
Definition theta (a : list N) : list N := matrix (fun i j => sum8 (fun k => wgf (cir k j) (el a i k))).
Definition sigma (k a : list N) : list N := map (fun q => N.lxor (fst q) (snd q)) (combine k a).
Definition rho (k a : list N) : list N := sigma k (theta (pi_ (gamma a))).
(** round constant [r] (from 1): the row 0 holds S-box entries 8(r-1) + j *)
Definition cr (r : nat) : list N := matrix (fun i j => if (i =? 0)%nat then S_ (N.of_nat (8 * (r - 1) + j)) else 0).
(** the key schedule and the rounds together, [n] rounds from round [r] on *)
Fixpoint wrounds (n r : nat) (k a : list N) : list N :=
  match n with O => a | S n => let k := rho (cr r) k in wrounds n (S r) k (rho k a) end.
Definition W_ (n : nat) (k a : list N) : list N := wrounds n 1 k (sigma k a).
(** Miyaguchi-Preneel; 10 rounds *)
Definition whirlpool_compress (n : nat) (h m : list N) : list N := sigma (sigma (W_ n h m) h) m.
Definition whirlpool (n : nat) (m : list N) : list N :=
  iterate 64 (whirlpool_compress n) (repeat 0 64) (md_pad 64 32 0x80 be_bytes m).
