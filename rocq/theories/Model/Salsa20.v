(** lib/stream/salsa20.c.  [qr_at], [add_words], [count_up], [key_consts] and [key_words] of
    Model/Chacha.v stand for the same statements in this file. *)
From Coq Require Import NArith Arith List Bool.
From Verif Require Import Lib.Word Lib.Res Model.LoadStore Model.Mem Model.Modes Model.Chacha.
Import ListNotations.
Local Open Scope N_scope.

(** salsa20.c:38-44: the macro QR on four words *)
Definition s20_qr (a b c d : N) : N * N * N * N :=
  let b := N.lxor b (rol 32 (a +w d) 7) in
  let c := N.lxor c (rol 32 (b +w a) 9) in
  let d := N.lxor d (rol 32 (c +w b) 13) in
  let a := N.lxor a (rol 32 (d +w c) 18) in
  (a, b, c, d).
(** salsa20.c:72-75 and 79-82 (the XSalsa20 loop 219-229 has the same indices) *)
Definition s20_columns : list (nat * nat * nat * nat) := [(0, 4, 8, 12); (5, 9, 13, 1); (10, 14, 2, 6); (15, 3, 7, 11)]%nat.
Definition s20_rows : list (nat * nat * nat * nat) := [(0, 1, 2, 3); (5, 6, 7, 4); (10, 11, 8, 9); (15, 12, 13, 14)]%nat.
(** salsa20.c:70-83: round [i] works on the columns if [i] is even, on the rows if it is odd *)
Definition s20_rounds (r : N) (x : list N) : list N :=
  pfor (N.to_nat r) 0 (fun i x => fold_left (qr_at s20_qr) (if Nat.even i then s20_columns else s20_rows) x) x.
(** salsa20.c:46-118 *)
Definition s20_core (r : N) (x : list N) : list N := stores store32l (add_words (s20_rounds r x) x).

(** salsa20.c:28-36; buf as in Model/Chacha.v *)
Record salsa20 := { s20_r : N; s20_x : list N; s20_buf : list N; s20_used : nat }.
(** salsa20.c:130-140 *)
Definition s20_refill (s : salsa20) : res salsa20 :=
  let b := s20_core (s20_r s) (s20_x s) in
  let* x := count_up 8 (s20_x s) in
  Ok {| s20_r := s20_r s; s20_x := x; s20_buf := b; s20_used := 0 |}.
Definition s20_next (s : salsa20) : res (salsa20 * N) :=
  let* s := if (s20_used s =? 64)%nat then s20_refill s else Ok s in
  let* k := get (s20_buf s) (s20_used s) in
  Ok ({| s20_r := s20_r s; s20_x := s20_x s; s20_buf := s20_buf s; s20_used := S (s20_used s) |}, k).
(** salsa20.c:120-144 *)
Definition salsa20_crypt (s : salsa20) (m : mem) (src dst len : nat) : res (salsa20 * mem) :=
  bloop (fun s b => let* p := s20_next s in Ok (fst p, N.lxor b (snd p))) src dst len (s, m).
(** salsa20.c:146-169 *)
Definition salsa20_prng (s : salsa20) (m : mem) (dst len : nat) : res (salsa20 * mem) := bloop0 s20_next dst len (s, m).

(** the order of the sixteen words: constants on the diagonal *)
Definition s20_words (c k iv : list N) : list N :=
  let c_ i := nth i c 0 in
  [c_ 0%nat] ++ firstn 4 k ++ [c_ 1%nat] ++ iv ++ [c_ 2%nat] ++ skipn 4 k ++ [c_ 3%nat].
(** salsa20.c:171-253: the words and r; IV (200-203) from x[6] on, up to 16 bytes of it *)
Definition s20_setup (r : N) (key iv : list N) : N * list N :=
  let c := key_consts (N.of_nat (length key)) in
  let x := s20_words c (key_words key)
    (load32l_array iv (repeat 0 4) (if (16 <? length iv)%nat then 16%nat else length iv)) in
  let r := if r =? 0 then 20 else r in
  (r, if (8 <? length iv)%nat then
    let y := s20_rounds r x in
    s20_words c ([nth 0 y 0; nth 5 y 0; nth 10 y 0; nth 15 y 0] ++ [nth 6 y 0; nth 7 y 0; nth 8 y 0; nth 9 y 0])
      ((if (16 <? length iv)%nat then load32l_array (skipn 16 iv) [0; 0] (length iv - 16) else [0; 0]) ++ [0; 0])
  else x).
Definition salsa20_maxkey : nat := 32.
Definition salsa20_maxiv : nat := 24.
(** salsa20.c:255-272 *)
Definition salsa20_create (r : N) (key iv : list N) : res salsa20 :=
  assert_ (stream_args_ok salsa20_maxkey salsa20_maxiv key iv)
    (let '(r, x) := s20_setup r key iv in Ok {| s20_r := r; s20_x := x; s20_buf := []; s20_used := 64 |}).
(** salsa20.c:171-253 *)
Definition salsa20_recreate (s : salsa20) (r : N) (key iv : list N) : res salsa20 :=
  assert_ (stream_args_ok salsa20_maxkey salsa20_maxiv key iv)
    (let '(r, x) := s20_setup r key iv in Ok {| s20_r := r; s20_x := x; s20_buf := s20_buf s; s20_used := 64 |}).
