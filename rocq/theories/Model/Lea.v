(** lib/block/lea.c *)
From Coq Require Import NArith Arith List Bool.
From Verif Require Import Lib.Word Lib.Res Lib.Bij Model.LoadStore Model.BlockApi Lib.Bytes.
Import ListNotations.
Local Open Scope N_scope.

(** lea.c:29-34 *)
Record lea := { lea_r : N; lea_k : list N }.

(** lea.c:36-40 *)
Definition lea_C : list N :=
  [0xC3EFE9DB; 0x44626B02; 0x79E27C8A; 0x78DF30EC; 0x715EA49E; 0xC785DA0A; 0xE04EF22A; 0xE5C40957].

(** A statement [xd = ROT((xs ^ k[i + p]) + (xd ^ k[i + p + 1]))] of lea.c:56-70 is
    [(d, s, n, p)]; [ROT] is a left rotation by [n], written with ROR32_03, ROR32_05
    or ROL32_09 in C. *)
Definition leaop : Type := nat * nat * (bool * N) * nat.
Definition lea_rot (q : bool * N) (x : N) : N := if fst q then rol 32 x (snd q) else ror 32 x (snd q).
Definition lea_unrot (q : bool * N) (x : N) : N := if fst q then ror 32 x (snd q) else rol 32 x (snd q).
Definition L (n : N) : bool * N := (true, n).
Definition R (n : N) : bool * N := (false, n).

Definition lea_op (ks : list N) (i : nat) (o : leaop) (x : list N) : res (list N) :=
  let '(d, s, q, p) := o in
  let* k0 := get ks (i + p) in
  let* k1 := get ks (i + p + 1) in
  Ok (upd x d (lea_rot q (wadd 32 (N.lxor (nth s x 0) k0) (N.lxor (nth d x 0) k1)))).

(** A statement [xd = (TOR(xd) - (xs ^ k[i + p])) ^ k[i + p + 1]] of lea.c:97-111;
    [p] is counted from the start of the group of 24 words ([i - 24] in C). *)
Definition lea_unop (ks : list N) (i : nat) (o : leaop) (x : list N) : res (list N) :=
  let '(d, s, q, p) := o in
  let* k0 := get ks (i + p) in
  let* k1 := get ks (i + p + 1) in
  Ok (upd x d (N.lxor (wsub 32 (lea_unrot q (nth d x 0)) (N.lxor (nth s x 0) k0)) k1)).

Definition mrun {I A} (f : I -> A -> res A) (l : list I) (x : A) : res A :=
  fold_left (fun y i => let* z := y in f i z) l (Ok x).

Definition lo (d s : nat) (q : bool * N) (p : nat) : leaop := (d, s, q, p).

(** lea.c:56-70 *)
Definition lea_enc_ops : list leaop :=
  [lo 3 2 (R 3) 4;  lo 2 1 (R 5) 2;  lo 1 0 (L 9) 0;
   lo 0 3 (R 3) 10; lo 3 2 (R 5) 8;  lo 2 1 (L 9) 6;
   lo 1 0 (R 3) 16; lo 0 3 (R 5) 14; lo 3 2 (L 9) 12;
   lo 2 1 (R 3) 22; lo 1 0 (R 5) 20; lo 0 3 (L 9) 18].

(** lea.c:97-111 *)
Definition lea_dec_ops : list leaop :=
  [lo 0 3 (L 9) 18; lo 1 0 (R 5) 20; lo 2 1 (R 3) 22;
   lo 3 2 (L 9) 12; lo 0 3 (R 5) 14; lo 1 0 (R 3) 16;
   lo 2 1 (L 9) 6;  lo 3 2 (R 5) 8;  lo 0 3 (R 3) 10;
   lo 1 0 (L 9) 0;  lo 2 1 (R 5) 2;  lo 3 2 (R 3) 4].

(** lea.c:42-78: i = 0, 24, .. while i < 6 r *)
Definition lea_encrypt (s : lea) (pt : list N) : res (list N) :=
  let* x := mfor (Nat.div (N.to_nat (lea_r s) + 3) 4) 0
    (fun j => mrun (lea_op (lea_k s) (24 * j)) lea_enc_ops) (loads load32l 4 4 pt) in
  Ok (stores store32l x).

(** lea.c:80-118: i = 6 r, 6 r - 24, .. while i > 0.  If r is not a multiple of 4 the
    last pass has i < 24 and reads k[i - 24] in front of the array. *)
Definition lea_decrypt (s : lea) (ct : list N) : res (list N) :=
  let r := N.to_nat (lea_r s) in
  let* x := mford (Nat.div r 4)
    (fun j => mrun (lea_unop (lea_k s) (6 * (Nat.modulo r 4) + 24 * j)) lea_dec_ops)
    (loads load32l 4 4 ct) in
  if Nat.eqb (Nat.modulo r 4) 0 then Ok (stores store32l x) else Err OobRead.

(** rotation counts in lea.c:139-144, 165-170, 191-194 *)
Definition lea_rots : list N := [1; 3; 6; 11; 13; 17].

(** One pass of the loops lea.c:135-152, 161-178, 187-202: the words [ix i c],
    c = 0 .. n-1, are updated in turn with the constant C[i mod m]; then the words
    [ix i c] for c in [out] are stored. *)
Definition lea_sched_step (n m : nat) (ix : nat -> nat -> nat) (out : list nat)
  (i : nat) (st : list N * list N) : list N * list N :=
  let '(t, k) := st in
  let ci := nth (Nat.modulo i m) lea_C 0 in
  let t := prun (fun c t => upd t (ix i c)
     (rol 32 (wadd 32 (nth (ix i c) t 0) (rolv 32 ci (N.land (N.of_nat (i + c)) 31))) (nth c lea_rots 0)))
     (seq 0 n) t in
  (t, k ++ map (fun c => nth (ix i c) t 0) out).

(** lea.c:120-206 *)
Definition lea_sched (r : nat) (key : list N) : list N :=
  if Nat.ltb 24 (length key) then
    snd (pfor r 0 (lea_sched_step 6 8 (fun i c => Nat.modulo (i * 6 + c) 8) (seq 0 6)) (key32l key 8, []))
  else if Nat.ltb 16 (length key) then
    snd (pfor r 0 (lea_sched_step 6 6 (fun _ c => c) (seq 0 6)) (key32l key 6, []))
  else
    snd (pfor r 0 (lea_sched_step 4 4 (fun _ c => c) [0; 1; 2; 1; 3; 1]%nat) (key32l key 4, [])).

Definition lea_maxkey : nat := 32.
(** lea.c:216-221 and 248-253 *)
Definition lea_rounds (r : N) (key : list N) : N :=
  if r =? 0 then
    if Nat.ltb 24 (length key) then 32 else if Nat.ltb 16 (length key) then 28 else 24
  else r.

Definition lea_setup (r : N) (key : list N) : lea :=
  {| lea_r := r; lea_k := lea_sched (N.to_nat r) key |}.

(** lea.c:208-232: 6 r words in [(24 r) mod 2^32] bytes *)
Definition lea_create (r : N) (key : list N) : res lea :=
  assert_ (key_len_ok lea_maxkey key)
    (let r := lea_rounds r key in
     fits (6 * r) (mask 32 (r * 24) / 4) (Ok (lea_setup r key))).

(** lea.c:240-266 *)
Definition lea_recreate (s : lea) (r : N) (key : list N) : res lea :=
  assert_ (key_len_ok lea_maxkey key)
    (let r := lea_rounds r key in
     if r =? lea_r s then Ok (lea_setup r key) else Err UseAfterFree).
