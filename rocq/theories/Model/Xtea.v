(** lib/block/xtea.c *)
From Coq Require Import NArith List.
From Verif Require Import Lib.Word Lib.Res Model.LoadStore Model.BlockApi Lib.Bytes.
Import ListNotations.
Local Open Scope N_scope.

(** xtea.c:30-35; [k] is the trailing array of [rounds] words *)
Record xtea := { xtea_rounds : N; xtea_k : list N }.

Definition xtea_delta : N := 0x9E3779B9.

(** xtea.c:51-58.  [left] iterations of [s->k[i++] = ...] remain; [odd] tells
    which of the two statements is next.  [n] is the number of key words, at least
    one because key_len > 0; the index is below [n <= 4]. *)
Fixpoint xtea_sched (left : nat) (odd : bool) (c : N) (k : list N) (n : N) : list N :=
  match left with
  | O => []
  | S l =>
      if odd then
        let c := wadd 32 c xtea_delta in
        wadd 32 c (nth (N.to_nat (wshr c 11 mod n)) k 0) :: xtea_sched l false c k n
      else wadd 32 c (nth (N.to_nat (c mod n)) k 0) :: xtea_sched l true c k n
  end.

(** xtea.c:37-61 *)
Definition xtea_setup (r : N) (key : list N) : xtea :=
  {| xtea_rounds := r;
     xtea_k := xtea_sched (N.to_nat r) false 0 (key32b key 4)
                 (wshr (N.of_nat (length key) + 3) 2) |}.

(** xtea.c:63 *)
Definition xtea_F (x : N) : N := wadd 32 (N.lxor (wshl 32 x 4) (wshr x 5)) x.

(** xtea.c:73 and 77 *)
Definition xtea_add (x y k : N) : N := wadd 32 x (N.lxor (xtea_F y) k).
(** xtea.c:92 and 96 *)
Definition xtea_sub (x y k : N) : N := wsub 32 x (N.lxor (xtea_F y) k).

(** xtea.c:71-78; [left] half rounds remain, the next key index is [i] *)
Fixpoint xtea_enc_loop (k : list N) (left i : nat) (x : N * N) : res (N * N) :=
  match left with
  | O => Ok x
  | S l1 =>
      let* k0 := get k i in
      let x0 := xtea_add (fst x) (snd x) k0 in
      match l1 with
      | O => Ok (x0, snd x)
      | S l2 =>
          let* k1 := get k (S i) in
          xtea_enc_loop k l2 (S (S i)) (x0, xtea_add (snd x) x0 k1)
      end
  end.

(** xtea.c:90-97.  With [i = 1] the second read is [s->k[UINT_MAX]]: [--i] wraps
    (the test on line 94 is not true at that point). *)
Fixpoint xtea_dec_loop (k : list N) (i : nat) (x : N * N) : res (N * N) :=
  match i with
  | O => Ok x
  | S i1 =>
      let* k1 := get k i1 in
      let x1 := xtea_sub (snd x) (fst x) k1 in
      match i1 with
      | O => Err OobRead
      | S i2 =>
          let* k0 := get k i2 in
          xtea_dec_loop k i2 (xtea_sub (fst x) x1 k0, x1)
      end
  end.

(** xtea.c:65-82 *)
Definition xtea_encrypt (s : xtea) (pt : list N) : res (list N) :=
  let* y := xtea_enc_loop (xtea_k s) (N.to_nat (xtea_rounds s)) 0 (ld2 (k := 4) (ld := load32b) pt) in
  Ok (st2 (st := store32b) y).

(** xtea.c:84-101 *)
Definition xtea_decrypt (s : xtea) (ct : list N) : res (list N) :=
  let* y := xtea_dec_loop (xtea_k s) (N.to_nat (xtea_rounds s)) (ld2 (k := 4) (ld := load32b) ct) in
  Ok (st2 (st := store32b) y).

Definition xtea_maxkey : nat := 16.
(** xtea.c:113 and 141 *)
Definition xtea_r (r : N) : N := if r =? 0 then 64 else r.

(** xtea.c:103-125: [r] words are stored, [(r << 2) mod 2^32] bytes are allocated *)
Definition xtea_create (r : N) (key : list N) : res xtea :=
  assert_ (key_len_ok xtea_maxkey key)
    (let r := xtea_r r in
     fits r (wshl 32 r 2 / 4) (Ok (xtea_setup r key))).

(** xtea.c:133-154: the object is wiped and freed before [s->desc] is read *)
Definition xtea_recreate (s : xtea) (r : N) (key : list N) : res xtea :=
  assert_ (key_len_ok xtea_maxkey key)
    (let r := xtea_r r in
     if r =? xtea_rounds s then Ok (xtea_setup r key) else Err UseAfterFree).
