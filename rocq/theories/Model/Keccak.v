(** lib/hash/keccak1600.c (Keccak and SHA-3) and keccak800.c.  The two files have the same functions for lanes of 64 and
    32 bits; the differences are in [keccakp].  Line numbers are those of keccak1600.c.  The local variables a0 .. a24
    are a list, the five groups of statements of a round are rows of a table. *)
From Coq Require Import NArith Arith List Bool.
From Verif Require Import Lib.Word Lib.Res Model.LoadStore Model.HashApi.
Import ListNotations.
Local Open Scope N_scope.

(** keccak1600.c:41-67 *)
Definition keccak1600_rc : list N :=
  [0x0000000000000001; 0x0000000000008082; 0x800000000000808A; 0x8000000080008000;
   0x000000000000808B; 0x0000000080000001; 0x8000000080008081; 0x8000000000008009;
   0x000000000000008A; 0x0000000000000088; 0x0000000080008009; 0x000000008000000A;
   0x000000008000808B; 0x800000000000008B; 0x8000000000008089; 0x8000000000008003;
   0x8000000000008002; 0x8000000000000080; 0x000000000000800A; 0x800000008000000A;
   0x8000000080008081; 0x8000000000008080; 0x0000000080000001; 0x8000000080008008;
   0x8000000080008082; 0x800000008000800A; 0x8000000000000003; 0x8000000080000009;
   0x8000000000008082; 0x0000000000008009; 0x8000000000000080; 0x0000000000008083;
   0x8000000000000081; 0x0000000000000001; 0x000000000000800B; 0x8000000080008001;
   0x0000000000000080; 0x8000000000008000; 0x8000000080008001; 0x0000000000000009;
   0x800000008000808B; 0x0000000000000081; 0x8000000000000082; 0x000000008000008B;
   0x8000000080008009; 0x8000000080000000; 0x0000000080000080; 0x0000000080008003].
(** keccak800.c:40-52 *)
Definition keccak800_rc : list N :=
  [0x00000001; 0x00008082; 0x8000808A; 0x00008000; 0x0000808B; 0x80000001; 0x00008081; 0x80008009;
   0x0000008A; 0x00000088; 0x80008009; 0x8000000A; 0x8000808B; 0x8000008B; 0x80008089; 0x80008003;
   0x80008002; 0x80000080; 0x0000800A; 0x0000000A; 0x00008081; 0x80008080; 0x80000001; 0x00008008;
   0x00008082; 0x0000800A; 0x80000003; 0x00000009; 0x80008082; 0x00008009; 0x80000080; 0x00008083;
   0x80000081; 0x00000001; 0x0000800B; 0x00008001; 0x00000080; 0x80008000; 0x00008001; 0x00000009].
(** keccak1600.c:151-234: of each of the five groups "a_i ^= d_j; c_k = ROL64_n(a_i);" the numbers i, j and n, in the
    order k = 0 .. 4 (n = 0 for "c0 = a0") *)
Definition keccak1600_rows : list (list (nat * nat * N)) :=
  [[(0, 0, 0%N); (6, 1, 44%N); (12, 2, 43%N); (18, 3, 21%N); (24, 4, 14%N)];
   [(3, 3, 28%N); (9, 4, 20%N); (10, 0, 3%N); (16, 1, 45%N); (22, 2, 61%N)];
   [(1, 1, 1%N); (7, 2, 6%N); (13, 3, 25%N); (19, 4, 8%N); (20, 0, 18%N)];
   [(4, 4, 27%N); (5, 0, 36%N); (11, 1, 10%N); (17, 2, 15%N); (23, 3, 56%N)];
   [(2, 2, 62%N); (8, 3, 55%N); (14, 4, 39%N); (15, 0, 41%N); (21, 1, 2%N)]]%nat.
(** keccak800.c:136-219 *)
Definition keccak800_rows : list (list (nat * nat * N)) :=
  [[(0, 0, 0%N); (6, 1, 12%N); (12, 2, 11%N); (18, 3, 21%N); (24, 4, 14%N)];
   [(3, 3, 28%N); (9, 4, 20%N); (10, 0, 3%N); (16, 1, 13%N); (22, 2, 29%N)];
   [(1, 1, 1%N); (7, 2, 6%N); (13, 3, 25%N); (19, 4, 8%N); (20, 0, 18%N)];
   [(4, 4, 27%N); (5, 0, 4%N); (11, 1, 10%N); (17, 2, 15%N); (23, 3, 24%N)];
   [(2, 2, 30%N); (8, 3, 23%N); (14, 4, 7%N); (15, 0, 9%N); (21, 1, 2%N)]]%nat.

(** what differs: bits and bytes of a lane, the tables, loads and stores, default rounds *)
Record keccakp := {
  kp_w : N; kp_k : nat; kp_rows : list (list (nat * nat * N)); kp_rc : list N;
  kp_load : list N -> nat -> N; kp_store : N -> list N; kp_r : N }.
Definition keccak1600p : keccakp := {|
  kp_w := 64; kp_k := 8; kp_rows := keccak1600_rows; kp_rc := keccak1600_rc; kp_load := load64l; kp_store := store64l; kp_r := 24 |}.
Definition keccak800p : keccakp := {|
  kp_w := 32; kp_k := 4; kp_rows := keccak800_rows; kp_rc := keccak800_rc; kp_load := load32l; kp_store := store32l; kp_r := 20 |}.

(** keccak1600.c:31-39.  rate is an unsigned int *)
Record keccak := { kc_r : N; kc_rate : N; kc_i : nat; kc_o : bool; kc_s : list N }.

Section Keccak.
  Variable p : keccakp.
  Let w := kp_w p.
  Let size := (25 * kp_k p)%nat.
  (** keccak1600.c:139-143, :145-149 *)
  Definition kc_c (a : list N) : list N := map (fun x =>
    let at_ i := nth i a 0 in N.lxor (N.lxor (N.lxor (N.lxor (at_ x) (at_ (x + 5)%nat)) (at_ (x + 10)%nat)) (at_ (x + 15)%nat)) (at_ (x + 20)%nat)) (seq 0 5).
  Definition kc_d (c : list N) : list N := map (fun q => N.lxor (rol w (nth (fst q) c 0) 1) (nth (snd q) c 0)) [(1, 4); (2, 0); (3, 1); (4, 2); (0, 3)]%nat.
  (** keccak1600.c:151-166 and the other four groups *)
  Definition kc_row (a d : list N) (row : list (nat * nat * N)) : list N :=
    let c := map (fun q => let '(i, j, n) := q in let x := N.lxor (nth i a 0) (nth j d 0) in if n =? 0 then x else rol w x n) row in
    map (fun k => N.lxor (nth k c 0) (N.land (wnot w (nth ((k + 1) mod 5) c 0)) (nth ((k + 2) mod 5) c 0))) (seq 0 5).
  (** keccak1600.c:139-260: one round; rc[i] is added to b0 *)
  Definition kc_round (rci : N) (a : list N) : list N :=
    let d := kc_d (kc_c a) in
    let b := flat_map (kc_row a d) (kp_rows p) in upd b 0 (N.lxor (nth 0 b 0) rci).
  (** keccak1600.c:69-288 on the 200 (100) bytes *)
  Definition kc_F (r : N) (s : list N) : res (list N) :=
    let a := map (fun i => kp_load p s (kp_k p * i)%nat) (seq 0 25) in
    let* a := mfor (N.to_nat r) 0 (fun i a => let* x := get (kp_rc p) i in Ok (kc_round x a)) a in
    Ok (flat_map (kp_store p) a).
  Definition kc_perm (s : keccak) : res keccak :=
    let* b := kc_F (kc_r s) (kc_s s) in
    Ok {| kc_r := kc_r s; kc_rate := kc_rate s; kc_i := 0; kc_o := kc_o s; kc_s := b |}.
  (** keccak1600.c:290-312: "rate = 200 - (out_len << 1)" in unsigned int; the salt is ignored *)
  Definition kc_start (r : N) (n : nat) : keccak :=
    {| kc_r := if r =? 0 then kp_r p else r; kc_rate := wsub 32 (N.of_nat size) (wshl 32 (mask 32 (N.of_nat n)) 1); kc_i := 0; kc_o := false; kc_s := repeat 0 size |}.
  (** s[i] ^= v *)
  Definition kc_xor (l : list N) (i : nat) (v : N) : res (list N) :=
    if (i <? length l)%nat then Ok (upd l i (N.lxor (nth i l 0) v)) else Err OobWrite.
  (** keccak1600.c:324-333 *)
  Definition kc_byte (s : keccak) (b : N) : res keccak :=
    let* l := kc_xor (kc_s s) (kc_i s) b in
    let s := {| kc_r := kc_r s; kc_rate := kc_rate s; kc_i := S (kc_i s); kc_o := kc_o s; kc_s := l |} in
    if N.of_nat (kc_i s) =? kc_rate s then kc_perm s else Ok s.
  Fixpoint kc_bytes (s : keccak) (l : list N) : res keccak :=
    match l with [] => Ok s | b :: t => let* s := kc_byte s b in kc_bytes s t end.
  (** keccak1600.c:314-335 *)
  Definition kc_input (s : keccak) (l : list N) : res keccak :=
    kc_bytes (if kc_o s then {| kc_r := kc_r s; kc_rate := kc_rate s; kc_i := 0; kc_o := false; kc_s := kc_s s |} else s) l.
  (** keccak1600.c:345-355, :441-451.  [dom] is 0x01 or 0x06; rate - 1 wraps around for rate 0 *)
  Definition kc_finish (dom : N) (s : keccak) : res keccak :=
    let* l := kc_xor (kc_s s) (kc_i s) dom in
    let e := wsub 32 (kc_rate s) 1 in
    if e <? N.of_nat size then
      let* l := kc_xor l (N.to_nat e) 0x80 in
      let* l := kc_F (kc_r s) l in
      Ok {| kc_r := kc_r s; kc_rate := kc_rate s; kc_i := 0; kc_o := true; kc_s := l |}
    else Err OobWrite.
  (** keccak1600.c:358-367 *)
  Fixpoint kc_squeeze (s : keccak) (len : nat) : res (keccak * list N) :=
    match len with
    | O => Ok (s, [])
    | S len =>
      let* s := if N.of_nat (kc_i s) =? kc_rate s then kc_perm s else Ok s in
      let* b := get (kc_s s) (kc_i s) in
      let* q := kc_squeeze {| kc_r := kc_r s; kc_rate := kc_rate s; kc_i := S (kc_i s); kc_o := kc_o s; kc_s := kc_s s |} len in
      Ok (fst q, b :: snd q)
    end.
  (** keccak1600.c:453-457: SHA-3 has no test for the end of the rate *)
  Fixpoint kc_read (s : keccak) (len : nat) : res (keccak * list N) :=
    match len with
    | O => Ok (s, [])
    | S len =>
      let* b := get (kc_s s) (kc_i s) in
      let* q := kc_read {| kc_r := kc_r s; kc_rate := kc_rate s; kc_i := S (kc_i s); kc_o := kc_o s; kc_s := kc_s s |} len in
      Ok (fst q, b :: snd q)
    end.
  (** keccak1600.c:337-368 *)
  Definition kc_output (s : keccak) (len : nat) : res (keccak * list N) :=
    let* s := if kc_o s then Ok s else kc_finish 0x01 s in kc_squeeze s len.
  (** keccak1600.c:433-458 *)
  Definition sha3_output (s : keccak) (len : nat) : res (keccak * list N) :=
    let* s := if kc_o s then Ok s else kc_finish 0x06 s in kc_read s len.
  (** keccak1600.c:370-428 *)
  Definition kc_hash : hash := {|
    hs_st := keccak;
    hs_create r _ n := Ok (kc_start r n);
    hs_recreate _ r _ n := Ok (kc_start r n);
    hs_input := kc_input;
    hs_output := kc_output;
    hs_all r _ l n := let* s := kc_input (kc_start r n) l in let* q := kc_output s n in Ok (snd q);
    hs_maxout := 0; hs_blocksize := size; hs_maxsalt := 0%N |}.
End Keccak.
Definition hash_keccak1600 : hash := kc_hash keccak1600p.
Definition hash_keccak800 : hash := kc_hash keccak800p.
(** keccak1600.c:460-498 *)
Definition hash_sha3 : hash := {|
  hs_st := keccak;
  hs_create r _ n := Ok (kc_start keccak1600p r n);
  hs_recreate _ r _ n := Ok (kc_start keccak1600p r n);
  hs_input := kc_input keccak1600p;
  hs_output := sha3_output keccak1600p;
  hs_all r _ l n := let* s := kc_input keccak1600p (kc_start keccak1600p r n) l in let* q := sha3_output keccak1600p s n in Ok (snd q);
  hs_maxout := 64; hs_blocksize := 200; hs_maxsalt := 0%N |}.
