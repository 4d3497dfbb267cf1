(** lib/block/rc5.c *)
From Coq Require Import NArith Arith List.
From Verif Require Import Lib.Word Lib.Res Model.LoadStore Model.BlockApi Lib.Bytes.
Import ListNotations.
Local Open Scope N_scope.

(** rc5.c:29-34 *)
Record rc5 := { rc5_r : N; rc5_k : list N }.

(** rc5.c:54-56 (also rc6.c:56-58): [n] words, each the previous one plus a constant *)
Fixpoint rc5_init (n : nat) (x : N) : list N :=
  match n with O => [] | S n' => x :: rc5_init n' (wadd 32 x 0x9E3779B9) end.

(** State of the mixing loop, rc5.c:58: a, b, i, j and the arrays s->k and x. *)
Record rc5_mix := { mx_a : N; mx_b : N; mx_i : nat; mx_j : nat; mx_k : list N; mx_x : list N }.

(** rc5.c:61-65 (also rc6.c:63-67).  [i] stays below [length mx_k] and [j] below
    [length mx_x = ls]. *)
Definition rc5_mix_step (m : rc5_mix) : rc5_mix :=
  let a := rol 32 (wadd 32 (wadd 32 (nth (mx_i m) (mx_k m) 0) (mx_a m)) (mx_b m)) 3 in
  let ab := wadd 32 a (mx_b m) in
  let b := rolv 32 (wadd 32 (wadd 32 (nth (mx_j m) (mx_x m) 0) a) (mx_b m)) ab in
  {| mx_a := a; mx_b := b;
     mx_i := if Nat.eqb (S (mx_i m)) (length (mx_k m)) then O else S (mx_i m);
     mx_j := if Nat.eqb (S (mx_j m)) (length (mx_x m)) then O else S (mx_j m);
     mx_k := upd (mx_k m) (mx_i m) a;
     mx_x := upd (mx_x m) (mx_j m) b |}.

(** rc5.c:36-71 and rc6.c:38-74, for a schedule of [n] words: [3 n] mixing steps.
    [x] has 64 words and ls = (key_len + 3) >> 2 <= 64 of them are used. *)
Definition rc5_sched (n : nat) (key : list N) : list N :=
  let m0 := {| mx_a := 0; mx_b := 0; mx_i := 0; mx_j := 0;
               mx_k := rc5_init n 0xB7E15163;
               mx_x := key32l key (Nat.div (length key + 3) 4) |} in
  mx_k (pfor (3 * n) 0 (fun _ m => rc5_mix_step m) m0).

(** rc5.c:87-88 *)
Definition rc5_enc_round (k0 k1 : N) (x : N * N) : N * N :=
  let a := wadd 32 (rolv 32 (N.lxor (fst x) (snd x)) (snd x)) k0 in
  let b := wadd 32 (rolv 32 (N.lxor (snd x) a) a) k1 in
  (a, b).

(** rc5.c:106-107 *)
Definition rc5_dec_round (k0 k1 : N) (x : N * N) : N * N :=
  let b := N.lxor (rorv 32 (wsub 32 (snd x) k1) (fst x)) (fst x) in
  let a := N.lxor (rorv 32 (wsub 32 (fst x) k0) b) b in
  (a, b).

(** rc5.c:73-93: rounds j = 0 .. r-1 use k[2j+2], k[2j+3] *)
Definition rc5_enc_words (s : rc5) (x : N * N) : res (N * N) :=
  let* k0 := get (rc5_k s) 0 in
  let* k1 := get (rc5_k s) 1 in
  mfor (N.to_nat (rc5_r s)) 0 (fun j y =>
    let* ka := get (rc5_k s) (2 * j + 2) in
    let* kb := get (rc5_k s) (2 * j + 3) in
    Ok (rc5_enc_round ka kb y)) (wadd 32 (fst x) k0, wadd 32 (snd x) k1).

(** rc5.c:95-115 *)
Definition rc5_dec_words (s : rc5) (x : N * N) : res (N * N) :=
  let* y := mford (N.to_nat (rc5_r s)) (fun j y =>
    let* kb := get (rc5_k s) (2 * j + 3) in
    let* ka := get (rc5_k s) (2 * j + 2) in
    Ok (rc5_dec_round ka kb y)) x in
  let* k1 := get (rc5_k s) 1 in
  let* k0 := get (rc5_k s) 0 in
  Ok (wsub 32 (fst y) k0, wsub 32 (snd y) k1).

Definition rc5_encrypt (s : rc5) (pt : list N) : res (list N) :=
  let* y := rc5_enc_words s (ld2 (k := 4) (ld := load32l) pt) in
  Ok (st2 (st := store32l) y).

Definition rc5_decrypt (s : rc5) (ct : list N) : res (list N) :=
  let* y := rc5_dec_words s (ld2 (k := 4) (ld := load32l) ct) in
  Ok (st2 (st := store32l) y).

Definition rc5_setup (r : N) (key : list N) : rc5 :=
  {| rc5_r := r; rc5_k := rc5_sched (N.to_nat (2 * (r + 1))) key |}.

Definition rc5_maxkey : nat := 255.
(** rc5.c:127 and 155 *)
Definition rc5_rounds (r : N) : N := if r =? 0 then 12 else r.

(** rc5.c:117-139: 2 (r + 1) words in [((r + 1) << 3) mod 2^32] bytes.  (For
    r + 1 >= 2^31 the loop bounds wrap too; the model reports all sizes that wrap
    as out of bounds.) *)
Definition rc5_create (r : N) (key : list N) : res rc5 :=
  assert_ (key_len_ok rc5_maxkey key)
    (let r := rc5_rounds r in
     fits (2 * (r + 1)) (wshl 32 (r + 1) 3 / 4) (Ok (rc5_setup r key))).

(** rc5.c:147-168 *)
Definition rc5_recreate (s : rc5) (r : N) (key : list N) : res rc5 :=
  assert_ (key_len_ok rc5_maxkey key)
    (let r := rc5_rounds r in
     if r =? rc5_r s then Ok (rc5_setup r key) else Err UseAfterFree).
