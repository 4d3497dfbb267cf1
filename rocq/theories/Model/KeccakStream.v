(** lib/stream/keccak.c: the stream ciphers made of the Keccak hashes.  [h] is the hash (kripto_hash_keccak1600 or
    kripto_hash_keccak800). *)
From Coq Require Import NArith Arith List Bool.
From Verif Require Import Lib.Res Model.Mem Model.HashApi Model.Keccak.
Import ListNotations.
Local Open Scope nat_scope.

Section Stream.
  Variables (h : hash) (maxkey : nat).
  (** keccak.c:31-36: the object is the hash object *)
  Notation kst := (hs_st h).
  (** keccak.c:38-66: n, buf and len - i are local variables; buf[64] is [] before the first call of hash_output *)
  Definition kst_step (q : kst * nat * list N * nat) (b : N) : res (kst * nat * list N * nat * N) :=
    let '(s, n, buf, todo) := q in
    let* q := if n =? 64 then
                let* p := hash_output h s (if todo <? 64 then todo else 64) in Ok (fst p, 0, snd p)
              else Ok (s, n, buf) in
    let '(s, n, buf) := q in
    let* k := get buf n in
    Ok (s, S n, buf, todo - 1, N.lxor b k).
  Definition kst_crypt (s : kst) (m : mem) (src dst len : nat) : res (kst * mem) :=
    let* q := bloop kst_step src dst len ((s, 64, [], len), m) in
    let '((s, _, _, _), m) := q in Ok (s, m).
  (** keccak.c:68-71 *)
  Definition kst_prng (s : kst) (m : mem) (dst len : nat) : res (kst * mem) :=
    let* p := hash_output h s len in Ok (fst p, wr m dst (snd p)).
  (** stream.c:41-44 with max iv UINT_MAX *)
  Definition kst_args_ok (key iv : list N) : bool :=
    (0 <? length key) && (length key <=? maxkey) && (N.of_nat (length iv) <=? 4294967295)%N.
  (** keccak.c:81-86: key, then iv *)
  Definition kst_feed (s : kst) (key iv : list N) : res kst := let* s := hash_input h s key in hash_input h s iv.
  (** keccak.c:97-127, :143-171 *)
  Definition kst_create (r : N) (key iv : list N) : res kst :=
    assert_ (kst_args_ok key iv) (let* s := hash_create h r [] (length key) in kst_feed s key iv).
  (** keccak.c:73-87 *)
  Definition kst_recreate (s : kst) (r : N) (key iv : list N) : res kst :=
    assert_ (kst_args_ok key iv) (let* s := hash_recreate h s r [] (length key) in kst_feed s key iv).
End Stream.
(** keccak.c:129-141, :173-185 *)
Definition keccak1600_stream_maxkey : nat := 99.
Definition keccak800_stream_maxkey : nat := 49.
