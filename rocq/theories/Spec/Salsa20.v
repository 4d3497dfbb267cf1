(** Salsa20 as in Bernstein's "Salsa20 specification" and XSalsa20 as in "Extending the
    Salsa20 nonce", with any number of rounds and key length. *)
From Coq Require Import String NArith Arith List.
From Verif Require Import Lib.Bytes Spec.Words Spec.Modes Spec.Chacha.
Import ListNotations.
Local Open Scope N_scope.

(** section 3 *)
Definition salsa_quarter (y0 y1 y2 y3 : N) : N * N * N * N :=
  let z1 := N.lxor y1 (rotl 32 (plus_w 32 y0 y3) 7) in
  let z2 := N.lxor y2 (rotl 32 (plus_w 32 z1 y0) 9) in
  let z3 := N.lxor y3 (rotl 32 (plus_w 32 z2 z1) 13) in
  let z0 := N.lxor y0 (rotl 32 (plus_w 32 z3 z2) 18) in
  (z0, z1, z2, z3).
(** section 4: row [i] turned so that the diagonal element comes first *)
Definition salsa_row_round (x : list N) : list N :=
  matrix (fun row col =>
    let c j := cell x row ((row + j) mod 4) in
    part (salsa_quarter (c 0%nat) (c 1%nat) (c 2%nat) (c 3%nat)) ((col + 4 - row) mod 4)).
Definition transpose (x : list N) : list N := matrix (fun row col => cell x col row).
(** section 5: the transpose of a row round *)
Definition salsa_column_round (x : list N) : list N := transpose (salsa_row_round (transpose x)).
(** section 6: columns first *)
Fixpoint salsa_rounds (n : nat) (x : list N) : list N :=
  match n with
  | O => x
  | S m => let y := salsa_rounds m x in if Nat.even m then salsa_column_round y else salsa_row_round y
  end.
(** section 8 *)
Definition salsa_hash (n : nat) (x : list N) : list N := le_string 4 (map2 (plus_w 32) (salsa_rounds n x) x).

(** section 9: "expand NN-byte k" on the diagonal, key before and after the nonce and counter *)
Definition salsa_state (text key input : list N) : list N :=
  le_words 4 16 (firstn 4 text ++ firstn 16 key ++ slice 4 4 text ++ input ++ slice 8 4 text ++ skipn 16 key ++ skipn 12 text).
(** section 10: 8 byte nonce, 64 bit counter *)
Definition salsa_ks8 (r : nat) (text key nonce : list N) (n : N) : list N :=
  salsa_hash r (salsa_state text key (nonce ++ le_bytes 8 n)).
(** HSalsa20: the diagonal and the words 6..9 *)
Definition hsalsa (r : nat) (text key nonce : list N) : list N :=
  let y := salsa_rounds r (salsa_state text key nonce) in
  le_string 4 [nth 0 y 0; nth 5 y 0; nth 10 y 0; nth 15 y 0; nth 6 y 0; nth 7 y 0; nth 8 y 0; nth 9 y 0].
Definition salsa_ks24 (r : nat) (text key nonce : list N) (n : N) : list N :=
  salsa_ks8 r text (hsalsa r text key (firstn 16 nonce)) (skipn 16 nonce) n.

(** Key stream of the library; keys repeated up to 32 bytes (Bernstein's 16 byte variant),
    nonces zero padded to 8 or 24 bytes; 0 rounds stands for 20. *)
Definition salsa_ks (r : N) (key nonce : list N) (n : N) : list N :=
  let t := expand_text (length key) in let k := repeated 32 key in
  if (length nonce <=? 8)%nat then salsa_ks8 (chacha_nr r) t k (zero_pad 8 nonce) n
  else salsa_ks24 (chacha_nr r) t k (zero_pad 24 nonce) n.
