(** Tables read at an index cast to uint8_t, as in S[(uint8_t)(x)]. *)
From Coq Require Import NArith List.
From Verif Require Import Lib.Word.

(** the index is below 256, so a table of 256 entries is never overrun *)
Definition tab8 (t : list N) (x : N) : N := nth (N.to_nat (byte x)) t 0%N.
