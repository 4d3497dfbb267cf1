(** Caller's memory: a byte at every address.  Buffers passed to the library are
    ranges of it and may overlap; objects allocated by the library are records
    kept apart from it.  Addresses do not wrap. *)
From Coq Require Import NArith Arith List Bool.
From Verif Require Import Lib.Res.
Import ListNotations.

Definition mem := nat -> N.
(** the [n] bytes at [a] *)
Definition rd (m : mem) (a n : nat) : list N := map (fun i => m (a + i)) (seq 0 n).
(** store bytes at [a] *)
Definition wr (m : mem) (a : nat) (l : list N) : mem :=
  fun x => if (a <=? x) && (x <? a + length l) then nth (x - a) l 0%N else m x.
Definition wr1 (m : mem) (a : nat) (b : N) : mem := fun x => if x =? a then b else m x.

(** [for(i = 0; i < len; i++) out[i] = step(in[i])], the state of the object threaded *)
Definition bloop {S} (step : S -> N -> res (S * N)) (src dst len : nat) (sm : S * mem) : res (S * mem) :=
  mfor len 0 (fun i sm =>
    let* p := step (fst sm) (snd sm (src + i)) in
    Ok (fst p, wr1 (snd sm) (dst + i) (snd p))) sm.
(** [for(i = 0; i < len; i++) out[i] = step()] *)
Definition bloop0 {S} (step : S -> res (S * N)) (dst len : nat) (sm : S * mem) : res (S * mem) :=
  mfor len 0 (fun i sm =>
    let* p := step (fst sm) in
    Ok (fst p, wr1 (snd sm) (dst + i) (snd p))) sm.
