(** ChaCha as in RFC 8439 (and Bernstein's original with a 64 bit counter and 64 bit nonce),
    HChaCha/XChaCha as in draft-irtf-cfrg-xchacha, with any number of rounds and key length. *)
From Coq Require Import String NArith Arith List.
From Verif Require Import Lib.Bytes Spec.Words Spec.Modes.
Import ListNotations.
Local Open Scope N_scope.

(** RFC 8439, 2.1 *)
Definition chacha_quarter (a b c d : N) : N * N * N * N :=
  let a := plus_w 32 a b in let d := rotl 32 (N.lxor d a) 16 in
  let c := plus_w 32 c d in let b := rotl 32 (N.lxor b c) 12 in
  let a := plus_w 32 a b in let d := rotl 32 (N.lxor d a) 8 in
  let c := plus_w 32 c d in let b := rotl 32 (N.lxor b c) 7 in
  (a, b, c, d).
Definition part (x : N * N * N * N) (i : nat) : N :=
  let '(a, b, c, d) := x in match i with 0%nat => a | 1%nat => b | 2%nat => c | _ => d end.

(** The state is a 4x4 matrix, row by row. *)
Definition cell (x : list N) (row col : nat) : N := nth (4 * row + col) x 0.
Definition matrix (f : nat -> nat -> N) : list N := map (fun k => f (k / 4) (k mod 4))%nat (seq 0 16).
(** quarter rounds on the columns *)
Definition chacha_column_round (x : list N) : list N :=
  matrix (fun row col => part (chacha_quarter (cell x 0 col) (cell x 1 col) (cell x 2 col) (cell x 3 col)) row).
(** quarter rounds on the diagonals: turn row [i] left by [i], work on columns, turn back *)
Definition chacha_diagonal_round (x : list N) : list N :=
  let y := chacha_column_round (matrix (fun row col => cell x row ((col + row) mod 4))) in
  matrix (fun row col => cell y row ((col + 4 - row) mod 4)).
(** rounds alternate, the first one works on columns *)
Fixpoint chacha_rounds (n : nat) (x : list N) : list N :=
  match n with
  | O => x
  | S m => let y := chacha_rounds m x in if Nat.even m then chacha_column_round y else chacha_diagonal_round y
  end.
Definition map2 (f : N -> N -> N) (a b : list N) : list N := map (fun p => f (fst p) (snd p)) (combine a b).
(** RFC 8439, 2.3: rounds, add the input, serialise *)
Definition chacha_block (n : nat) (x : list N) : list N := le_string 4 (map2 (plus_w 32) (chacha_rounds n x) x).

(** "expand NN-byte k" where NN is the key length in two digits *)
Definition digit (n : nat) : N := 48 + N.of_nat n.
Definition expand_text (n : nat) : list N :=
  ascii_bytes "expand " ++ [digit (n / 10); digit (n mod 10)] ++ ascii_bytes "-byte k".
(** constants and key: short keys are repeated up to 32 bytes *)
Definition chacha_head (key : list N) : list N :=
  le_words 4 4 (expand_text (length key)) ++ le_words 4 8 (repeated 32 key).

(** block number [n] of the key stream, 8 byte nonce, 64 bit counter *)
Definition chacha_ks8 (r : nat) (head nonce : list N) (n : N) : list N :=
  chacha_block r (head ++ le_words 4 2 (le_bytes 8 n) ++ le_words 4 2 nonce).
(** 12 byte nonce, 32 bit counter (RFC 8439) *)
Definition chacha_ks12 (r : nat) (head nonce : list N) (n : N) : list N :=
  chacha_block r (head ++ [n] ++ le_words 4 3 nonce).
(** HChaCha: first and last row after the rounds, no addition *)
Definition hchacha (r : nat) (head nonce : list N) : list N :=
  let y := chacha_rounds r (head ++ le_words 4 4 nonce) in
  [cell y 0 0; cell y 0 1; cell y 0 2; cell y 0 3; cell y 3 0; cell y 3 1; cell y 3 2; cell y 3 3].
(** XChaCha, 24 byte nonce: a key from the first 16 bytes, a stream from the last 8 *)
Definition chacha_ks24 (r : nat) (head nonce : list N) (n : N) : list N :=
  chacha_ks8 r (firstn 4 head ++ hchacha r head (firstn 16 nonce)) (skipn 16 nonce) n.

(** Key stream of the library: the nonce is zero padded to the next of these lengths; 0 rounds
    stands for 20. *)
Definition chacha_nr (r : N) : nat := if r =? 0 then 20 else N.to_nat r.
Definition chacha_ks (r : N) (key nonce : list N) (n : N) : list N :=
  let h := chacha_head key in
  if (length nonce <=? 8)%nat then chacha_ks8 (chacha_nr r) h (zero_pad 8 nonce) n
  else if (length nonce <=? 12)%nat then chacha_ks12 (chacha_nr r) h (zero_pad 12 nonce) n
  else chacha_ks24 (chacha_nr r) h (zero_pad 24 nonce) n.
