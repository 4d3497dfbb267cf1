(** Words and byte strings the way the published documents write them: addition
    modulo [2^w], rotation as multiplication and division, strings of ASCII bytes,
    words from bytes.  Used only by specifications. *)
From Coq Require Import NArith Arith List Ascii String.
From Verif Require Import Lib.Bytes.
Import ListNotations.
Local Open Scope N_scope.

(** [x + y mod 2^w] *)
Definition plus_w (w x y : N) : N := (x + y) mod 2 ^ w.
(** left and right rotation of a [w] bit word by [n < w] *)
Definition rotl (w x n : N) : N := (x * 2 ^ n) mod 2 ^ w + x / 2 ^ (w - n).
Definition rotr (w x n : N) : N := x / 2 ^ n + (x * 2 ^ (w - n)) mod 2 ^ w.
(** right shift *)
Definition shr (x n : N) : N := x / 2 ^ n.

(** the bytes of a text *)
Fixpoint ascii_bytes (s : string) : list N :=
  match s with EmptyString => [] | String c s => N_of_ascii c :: ascii_bytes s end.

(** the [n] words of [k] bytes at the start of [l] *)
Definition le_words (k n : nat) (l : list N) : list N := map (fun i => le_val (slice (k * i) k l)) (seq 0 n).
Definition be_words (k n : nat) (l : list N) : list N := map (fun i => be_val (slice (k * i) k l)) (seq 0 n).
(** and back *)
Definition le_string (k : nat) (ws : list N) : list N := flat_map (le_bytes k) ws.
Definition be_string (k : nat) (ws : list N) : list N := flat_map (be_bytes k) ws.

(** zero bytes up to length [n] *)
Definition zero_pad (n : nat) (l : list N) : list N := l ++ repeat 0 (n - List.length l).
(** the first [n] bytes of [l l l ...] *)
Definition repeated (n : nat) (l : list N) : list N := map (fun i => nth (i mod List.length l) l 0) (seq 0 n).
