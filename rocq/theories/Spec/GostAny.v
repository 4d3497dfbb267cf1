(** GOST with keys of fewer words and other round counts, as the library has it: n key words, filled with zero bytes, are
    taken in order again and again, and in the last n rounds in reverse. *)
From Coq Require Import NArith Arith List Bool.
From Verif Require Import Spec.Words Spec.Arx.
Import ListNotations.

Definition gost_order_any (n r : nat) : list nat := map (fun i => if i <? r - n then i mod n else r - 1 - i) (seq 0 r).
Definition gost_any (sb : list (list N)) (r : nat) (key pt : list N) : list N :=
  let n := (length key + 3) / 4 in
  let K := le_words 4 n (zero_pad (4 * n) key) in
  let w := le_words 4 2 pt in
  let v := fold_left (gost_round sb) (map (word K) (gost_order_any n r)) (word w 0, word w 1) in
  le_string 4 [snd v; fst v].
