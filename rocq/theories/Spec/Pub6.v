(** The SAFER family.  Massey: SAFER K-64, a byte-oriented block-ciphering algorithm, and its successors SAFER K-128 and
    SAFER SK; Massey, Khachatrian, Kuregian: SAFER++.  Bytes are numbered from 0 here, subkeys from 1. *)
From Coq Require Import NArith Arith List Bool.
From Verif Require Import Lib.Res Lib.Bytes Spec.Words Spec.Arx Spec.Pub3.
Import ListNotations.
Local Open Scope N_scope.

(** powers of 45 modulo the prime 257, with 256 written as 0, and the inverse function *)
Definition sfr_exp (e : N) : N := (45 ^ e mod 257) mod 256.
Definition sfr_log (y : N) : N := box_inverse sfr_exp y.
(** the first and the last of every four bytes *)
Definition sfr_outer (j : nat) : bool := match (j mod 4)%nat with 1%nat | 2%nat => false | _ => true end.
Definition sfr_each (f g : N -> N -> N) (x k : list N) : list N :=
  map (fun j => (if sfr_outer j then f else g) (nth j x 0) (nth j k 0)) (seq 0 (length x)).
Definition sfr_xor : N -> N -> N := N.lxor.
Definition sfr_sum (a b : N) : N := (a + b) mod 256.
Definition sfr_boxes (x : list N) : list N := sfr_each (fun v _ => sfr_exp v) (fun v _ => sfr_log v) x [].
(** a round with the subkeys [K], [K'] and the linear layer [M]; the output transformation *)
Definition sfr_round (M : list N -> list N) (K K' x : list N) : list N :=
  M (sfr_each sfr_sum sfr_xor (sfr_boxes (sfr_each sfr_xor sfr_sum x K)) K').
Definition sfr_full (M : list N -> list N) (K : nat -> list N) (r : nat) (pt : list N) : list N :=
  sfr_each sfr_xor sfr_sum (fold_left (fun x i => sfr_round M (K (2 * i - 1)%nat) (K (2 * i)%nat) x) (seq 1 r) pt) (K (2 * r + 1)%nat).

(** the pseudo-Hadamard transform of pairs, three times, with the bytes in the even places collected in front in between *)
Fixpoint pht2 (l : list N) : list N :=
  match l with a :: b :: t => (2 * a + b) mod 256 :: (a + b) mod 256 :: pht2 t | _ => l end.
Definition decimate (l : list N) : list N := map (fun i => nth i l 0) [0; 2; 4; 6; 1; 3; 5; 7]%nat.
Definition safer_M (x : list N) : list N := pht2 (decimate (pht2 (decimate (pht2 x)))).
(** SAFER++: the transform of four bytes after a shuffle, twice *)
Fixpoint pht4 (l : list N) : list N :=
  match l with
  | a :: b :: c :: d :: t => (2 * a + b + c + d) mod 256 :: (a + 2 * b + c + d) mod 256 :: (a + b + 2 * c + d) mod 256 :: (a + b + c + d) mod 256 :: pht4 t
  | _ => l
  end.
Definition shuffle16 (l : list N) : list N := map (fun i => nth i l 0) [8; 5; 2; 15; 0; 13; 10; 7; 4; 1; 14; 11; 12; 9; 6; 3]%nat.
Definition saferpp_M (x : list N) : list N := pht4 (shuffle16 (pht4 (shuffle16 x))).

(** Subkeys.  Those of even number come from the key half [Ka], the others from [Kb]; each time a half is turned by
    three bits per subkey; from the second subkey on a bias is added.  [sel i j] is the place of the byte used for
    byte j of subkey i, among the bytes of the half and their exclusive or. *)
Definition sfr_parity (l : list N) : list N := l ++ [fold_left N.lxor l 0].
Definition sfr_subkey (n : nat) (sel : nat -> nat -> nat) (bias : nat -> nat -> N) (Ka Kb : list N) (i : nat) : list N :=
  let half := sfr_parity (if Nat.even i then Ka else Kb) in
  map (fun j => let v := rotl 8 (nth (sel i j) half 0) (N.of_nat (3 * (i - 1) mod 8)) in
                if Nat.eqb i 1 then v else (v + bias i j) mod 256) (seq 0 n).
(** K-64 and K-128 take byte j, SK-64 and SK-128 go on cyclically *)
Definition safer_sel (sk : bool) (i j : nat) : nat := if sk then ((i - 1 + j) mod 9)%nat else j.
Definition safer_bias (i j : nat) : N := sfr_exp (45 ^ N.of_nat (9 * i + (j + 1)) mod 257).
Definition safer_cipher (sk : bool) (key pt : list N) : list N :=
  let long := Nat.eqb (length key) 16 in
  let Ka := firstn 8 key in
  let Kb := if long then skipn 8 key else key in
  sfr_full safer_M (sfr_subkey 8 (safer_sel sk) safer_bias Ka Kb) (if long then 10 else 6) pt.

Definition saferpp_sel (i j : nat) : nat := ((i - 1 + j) mod 17)%nat.
Definition saferpp_bias (i j : nat) : N :=
  let e := 45 ^ N.of_nat (17 * i + (j + 1)) mod 257 in
  if Nat.leb i 15 then sfr_exp e else e mod 256.
Definition saferpp_cipher (key pt : list N) : list N :=
  let long := Nat.eqb (length key) 32 in
  let Kb := firstn 16 key in
  let Ka := if long then skipn 16 key else key in
  sfr_full saferpp_M (sfr_subkey 16 saferpp_sel saferpp_bias Ka Kb) (if long then 10 else 7) pt.
