(** lib/block/rc6.c; the key schedule is the one of rc5.c with another length *)
From Coq Require Import NArith Arith List.
From Verif Require Import Lib.Word Lib.Res Model.LoadStore Model.BlockApi Model.Rc5 Lib.Bytes.
Import ListNotations.
Local Open Scope N_scope.

(** rc6.c:29-34 *)
Record rc6 := { rc6_rounds : N; rc6_k : list N }.

(** rc6.c:97: ROL32_05(b * ((b << 1) | 1)) *)
Definition rc6_m (b : N) : N := rol 32 (wmul 32 b (N.lor (wshl 32 b 1) 1)) 5.

(** rc6.c:97-104 *)
Definition rc6_enc_round (ka kb : N) (x : N * N * N * N) : N * N * N * N :=
  let '(a, b, c, d) := x in
  let m0 := rc6_m b in
  let m1 := rc6_m d in
  let t := wadd 32 (rolv 32 (N.lxor a m0) m1) ka in
  (b, wadd 32 (rolv 32 (N.lxor c m1) m0) kb, d, t).

(** rc6.c:137-144 *)
Definition rc6_dec_round (ka kb : N) (x : N * N * N * N) : N * N * N * N :=
  let '(a, b, c, d) := x in
  let m0 := rc6_m a in
  let m1 := rc6_m c in
  (N.lxor (rorv 32 (wsub 32 d ka) m1) m0, a, N.lxor (rorv 32 (wsub 32 b kb) m0) m1, c).

(** rc6.c:76-114: rounds j = 0 .. r-1 use k[2j+2], k[2j+3]; then i = 2r+2 *)
Definition rc6_enc_words (s : rc6) (x : N * N * N * N) : res (N * N * N * N) :=
  let '(a, b, c, d) := x in
  let r := N.to_nat (rc6_rounds s) in
  let* k0 := get (rc6_k s) 0 in
  let* k1 := get (rc6_k s) 1 in
  let* '(a, b, c, d) := mfor r 0 (fun j y =>
    let* ka := get (rc6_k s) (2 * j + 2) in
    let* kb := get (rc6_k s) (2 * j + 3) in
    Ok (rc6_enc_round ka kb y)) (a, wadd 32 b k0, c, wadd 32 d k1) in
  let* k2 := get (rc6_k s) (2 * r + 2) in
  let* k3 := get (rc6_k s) (2 * r + 3) in
  Ok (wadd 32 a k2, b, wadd 32 c k3, d).

(** rc6.c:116-156: the loop runs with i = 2r, 2r-2, .., 2 and uses k[i], k[i+1] *)
Definition rc6_dec_words (s : rc6) (x : N * N * N * N) : res (N * N * N * N) :=
  let '(a, b, c, d) := x in
  let r := N.to_nat (rc6_rounds s) in
  let* k2 := get (rc6_k s) (2 * r + 2) in
  let* k3 := get (rc6_k s) (2 * r + 3) in
  let* '(a, b, c, d) := mford r (fun j y =>
    let* kb := get (rc6_k s) (2 * j + 3) in
    let* ka := get (rc6_k s) (2 * j + 2) in
    Ok (rc6_dec_round ka kb y)) (wsub 32 a k2, b, wsub 32 c k3, d) in
  let* k0 := get (rc6_k s) 0 in
  let* k1 := get (rc6_k s) 1 in
  Ok (a, wsub 32 b k0, c, wsub 32 d k1).

Definition rc6_encrypt (s : rc6) (pt : list N) : res (list N) :=
  let* y := rc6_enc_words s (ld4 (k := 4) (ld := load32l) pt) in
  Ok (st4 (st := store32l) y).

Definition rc6_decrypt (s : rc6) (ct : list N) : res (list N) :=
  let* y := rc6_dec_words s (ld4 (k := 4) (ld := load32l) ct) in
  Ok (st4 (st := store32l) y).

(** rc6.c:36 RC6_K_LEN(r) = (r + 2) << 1 *)
Definition rc6_setup (r : N) (key : list N) : rc6 :=
  {| rc6_rounds := r; rc6_k := rc5_sched (N.to_nat (2 * (r + 2))) key |}.

Definition rc6_maxkey : nat := 255.
(** rc6.c:168 and 196 *)
Definition rc6_r (r : N) : N := if r =? 0 then 20 else r.

(** rc6.c:158-180: 2 (r + 2) words in [(RC6_K_LEN(r) << 2) mod 2^32] bytes *)
Definition rc6_create (r : N) (key : list N) : res rc6 :=
  assert_ (key_len_ok rc6_maxkey key)
    (let r := rc6_r r in
     fits (2 * (r + 2)) (wshl 32 (2 * (r + 2)) 2 / 4) (Ok (rc6_setup r key))).

(** rc6.c:188-209 *)
Definition rc6_recreate (s : rc6) (r : N) (key : list N) : res rc6 :=
  assert_ (key_len_ok rc6_maxkey key)
    (let r := rc6_r r in
     if r =? rc6_rounds s then Ok (rc6_setup r key) else Err UseAfterFree).
