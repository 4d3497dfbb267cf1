(** lib/stream/rc4.c.  uint8_t indices into p[256]: reads and writes go through [get] and [put]. *)
From Coq Require Import NArith Arith List Bool.
From Verif Require Import Lib.Word Lib.Res Model.Mem Model.Modes.
Import ListNotations.
Local Open Scope N_scope.

(** rc4.c:27-34 *)
Record rc4 := { rc4_p : list N; rc4_i : N; rc4_j : N }.
(** "t = p[i]; p[i] = p[j]; p[j] = t" *)
Definition rc4_swap (p : list N) (i j : N) : res (list N) :=
  let* t := get p (N.to_nat i) in
  let* u := get p (N.to_nat j) in
  let* p := put p (N.to_nat i) u in
  put p (N.to_nat j) t.
(** rc4.c:52-64: one turn of the key loop; k is the key index *)
Definition rc4_key_step (key : list N) (sk : rc4 * nat) : res (rc4 * nat) :=
  let '(s, k) := sk in
  let* a := get (rc4_p s) (N.to_nat (rc4_i s)) in
  let* b := get key k in
  let j := wadd 8 (wadd 8 (rc4_j s) a) b in
  let k := if (S k =? length key)%nat then 0%nat else S k in
  let* p := rc4_swap (rc4_p s) (rc4_i s) j in
  Ok ({| rc4_p := p; rc4_i := wadd 8 (rc4_i s) 1; rc4_j := j |}, k).
(** rc4.c:36-68 *)
Definition rc4_setup (key : list N) : res rc4 :=
  let s := {| rc4_p := map N.of_nat (seq 0 256); rc4_i := 0; rc4_j := 0 |} in
  let* sk := mfor 256 0 (fun _ => rc4_key_step key) (s, 0%nat) in
  Ok {| rc4_p := rc4_p (fst sk); rc4_i := 0; rc4_j := 0 |}.
(** rc4.c:70-82 *)
Definition rc4_next (s : rc4) : res (rc4 * N) :=
  let i := wadd 8 (rc4_i s) 1 in
  let* a := get (rc4_p s) (N.to_nat i) in
  let j := wadd 8 (rc4_j s) a in
  let* p := rc4_swap (rc4_p s) i j in
  let* x := get p (N.to_nat i) in
  let* y := get p (N.to_nat j) in
  let* z := get p (N.to_nat (wadd 8 x y)) in
  Ok ({| rc4_p := p; rc4_i := i; rc4_j := j |}, z).
(** rc4.c:84-96 *)
Definition rc4_crypt (s : rc4) (m : mem) (src dst len : nat) : res (rc4 * mem) :=
  bloop (fun s b => let* p := rc4_next s in Ok (fst p, N.lxor b (snd p))) src dst len (s, m).
(** rc4.c:98-109 *)
Definition rc4_prng (s : rc4) (m : mem) (dst len : nat) : res (rc4 * mem) := bloop0 rc4_next dst len (s, m).
Definition rc4_maxkey : nat := 256.
(** rc4.c:111-133: "rounds" is the number of bytes thrown away *)
Definition rc4_start (r : N) (key : list N) : res rc4 :=
  let* s := rc4_setup key in
  mfor (N.to_nat r) 0 (fun _ s => let* p := rc4_next s in Ok (fst p)) s.
(** rc4.c:135-152 *)
Definition rc4_create (r : N) (key iv : list N) : res rc4 :=
  assert_ (stream_args_ok rc4_maxkey 0 key iv) (rc4_start r key).
(** rc4.c:111-133: everything of the old state is overwritten *)
Definition rc4_recreate (s : rc4) (r : N) (key iv : list N) : res rc4 :=
  assert_ (stream_args_ok rc4_maxkey 0 key iv) (rc4_start r key).
