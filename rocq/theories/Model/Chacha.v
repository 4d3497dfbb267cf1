(** lib/stream/chacha.c *)
From Coq Require Import NArith Arith List Bool.
From Verif Require Import Lib.Word Lib.Res Model.LoadStore Model.Mem Model.Modes.
Import ListNotations.
Local Open Scope N_scope.

Notation "a +w b" := (wadd 32 a b) (at level 50, left associativity).

(** chacha.c:38-44: the macro QR on four words *)
Definition cc_qr (a b c d : N) : N * N * N * N :=
  let a := a +w b in let d := rol 32 (N.lxor d a) 16 in
  let c := c +w d in let b := rol 32 (N.lxor b c) 12 in
  let a := a +w b in let d := rol 32 (N.lxor d a) 8 in
  let c := c +w d in let b := rol 32 (N.lxor b c) 7 in
  (a, b, c, d).
(** four words of an array as arguments of QR *)
Definition qr_at (qr : N -> N -> N -> N -> N * N * N * N) (x : list N) (i : nat * nat * nat * nat) : list N :=
  let '(a, b, c, d) := i in
  let '(va, vb, vc, vd) := qr (nth a x 0) (nth b x 0) (nth c x 0) (nth d x 0) in
  upd (upd (upd (upd x a va) b vb) c vc) d vd.
(** chacha.c:72-75 and 79-82 (the XChaCha loop 218-228 has the same indices) *)
Definition cc_columns : list (nat * nat * nat * nat) := [(0, 4, 8, 12); (1, 5, 9, 13); (2, 6, 10, 14); (3, 7, 11, 15)]%nat.
Definition cc_diagonals : list (nat * nat * nat * nat) := [(0, 5, 10, 15); (1, 6, 11, 12); (2, 7, 8, 13); (3, 4, 9, 14)]%nat.
(** chacha.c:70-83: the loop counts single rounds, "if(++i == r) break" between the two
    halves: round [i] works on the columns if [i] is even, on the diagonals if it is odd *)
Definition cc_rounds (r : N) (x : list N) : list N :=
  pfor (N.to_nat r) 0 (fun i x => fold_left (qr_at cc_qr) (if Nat.even i then cc_columns else cc_diagonals) x) x.
(** "x00 += x[ 0]; ..." *)
Fixpoint add_words (a b : list N) : list N :=
  match a, b with x :: a', y :: b' => (x +w y) :: add_words a' b' | _, _ => [] end.
(** chacha.c:46-118 *)
Definition cc_core (r : N) (x : list N) : list N := stores store32l (add_words (cc_rounds r x) x).

(** chacha.c:28-36; buf holds nothing before the first refill (malloc memory): [] here, so
    that a read of it would be an error *)
Record chacha := { cc_r : N; cc_x : list N; cc_buf : list N; cc_used : nat }.
(** chacha.c:135-139: the counter after a block; x[12] then x[13], assert(x[13]) on wrap *)
Definition count_up (lo : nat) (x : list N) : res (list N) :=
  let v := nth lo x 0 +w 1 in
  let x := upd x lo v in
  if v =? 0 then
    let h := nth (lo + 1) x 0 +w 1 in
    assert_ (negb (h =? 0)) (Ok (upd x (lo + 1) h))
  else Ok x.
Definition cc_refill (s : chacha) : res chacha :=
  let b := cc_core (cc_r s) (cc_x s) in
  let* x := count_up 12 (cc_x s) in
  Ok {| cc_r := cc_r s; cc_x := x; cc_buf := b; cc_used := 0 |}.
Definition cc_next (s : chacha) : res (chacha * N) :=
  let* s := if (cc_used s =? 64)%nat then cc_refill s else Ok s in
  let* k := get (cc_buf s) (cc_used s) in
  Ok ({| cc_r := cc_r s; cc_x := cc_x s; cc_buf := cc_buf s; cc_used := S (cc_used s) |}, k).
(** chacha.c:120-144 *)
Definition chacha_crypt (s : chacha) (m : mem) (src dst len : nat) : res (chacha * mem) :=
  bloop (fun s b => let* p := cc_next s in Ok (fst p, N.lxor b (snd p))) src dst len (s, m).
(** chacha.c:146-169 *)
Definition chacha_prng (s : chacha) (m : mem) (dst len : nat) : res (chacha * mem) := bloop0 cc_next dst len (s, m).

(** chacha.c:181-187 *)
Definition key_consts (klen : N) : list N :=
  [0x61707865; 0x3020646E +w N.shiftl (klen / 10) 24; 0x79622D30 +w klen mod 10; 0x6B206574].
(** chacha.c:194-200: the eight key words, key bytes repeated up to 32 *)
Definition key_words (key : list N) : list N :=
  pfor 32 0 (fun i k => upd k (i / 4) (N.lor (nth (i / 4) k 0)
    (N.shiftl (nth (i mod length key) key 0) (N.of_nat (8 * (i mod 4)))))) (repeat 0 8).
(** chacha.c:202-209: x[12..15]; the first 16 bytes of the IV end at x[15] when there are up to
    8, 12 or 16 of them *)
Definition cc_iv (iv : list N) : list N :=
  let n := length iv in
  let off := if (8 <? n)%nat then (if (12 <? n)%nat then 0%nat else 1%nat) else 2%nat in
  repeat 0 off ++ load32l_array iv (repeat 0 (4 - off)) (if (16 <? n)%nat then 16%nat else n).
(** chacha.c:171-251: the words and r *)
Definition cc_setup (r : N) (key iv : list N) : N * list N :=
  let c := key_consts (N.of_nat (length key)) in
  let x := c ++ key_words key ++ cc_iv iv in
  let r := if r =? 0 then 20 else r in
  (r, if (12 <? length iv)%nat then
    let y := cc_rounds r x in
    c ++ firstn 4 y ++ skipn 12 y ++ [0; 0] ++
      (if (16 <? length iv)%nat then load32l_array (skipn 16 iv) [0; 0] (length iv - 16) else [0; 0])
  else x).
Definition chacha_maxkey : nat := 32.
Definition chacha_maxiv : nat := 24.
(** chacha.c:253-270 *)
Definition chacha_create (r : N) (key iv : list N) : res chacha :=
  assert_ (stream_args_ok chacha_maxkey chacha_maxiv key iv)
    (let '(r, x) := cc_setup r key iv in Ok {| cc_r := r; cc_x := x; cc_buf := []; cc_used := 64 |}).
(** chacha.c:171-251; the old buf stays but is not read before the next refill *)
Definition chacha_recreate (s : chacha) (r : N) (key iv : list N) : res chacha :=
  assert_ (stream_args_ok chacha_maxkey chacha_maxiv key iv)
    (let '(r, x) := cc_setup r key iv in Ok {| cc_r := r; cc_x := x; cc_buf := cc_buf s; cc_used := 64 |}).
