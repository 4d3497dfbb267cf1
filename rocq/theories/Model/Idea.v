(** lib/block/idea.c *)
From Coq Require Import NArith Arith List Bool.
From Verif Require Import Lib.Word Lib.Res Model.LoadStore Model.BlockApi Lib.Bytes.
Import ListNotations.
Local Open Scope N_scope.

(** idea.c:28-34 *)
Record idea := { idea_r : N; idea_ek : list N; idea_dk : list N }.

(** idea.c:40-51.  In C, a * b is a product of two uint16_t promoted to int and
    overflows int when it is 2^31 or more; the model takes the wrapped product. *)
Definition idea_mul (a b : N) : N :=
  let p := wmul 32 a b in
  if p =? 0 then wsub 16 (wsub 16 1 a) b
  else let p := wsub 32 (mask 16 p) (wshr p 16) in wsub 16 (mask 16 p) (wshr p 16).

(** idea.c:52-64 *)
Definition idea_inv (x : N) : N :=
  pfor 15 0 (fun _ y => idea_mul (idea_mul y y) x) x.
(** idea.c:66 *)
Definition idea_neg (x : N) : N := wsub 16 0 x.

(** idea.c:82-88: extend the encryption key to 6 r + 4 words. *)
Definition idea_ext (i : nat) (ek : list N) : list N :=
  let j := (i / 8 * 8 - 8)%nat in
  ek ++ [mask 16 (N.lor (N.shiftl (nth (j + (i + 1) mod 8) ek 0) 9) (wshr (nth (j + (i + 2) mod 8) ek 0) 7))].

(** idea.c:91-105 *)
Definition idea_dec_key (r : nat) (ek : list N) : list N :=
  let e i := nth i ek 0 in
  flat_map (fun i =>
    let o := if Nat.eqb i 0 then 0%nat else 1%nat in
    let b := ((r - i) * 6)%nat in
    let c := ((r - 1 - i) * 6)%nat in
    [idea_inv (e b); idea_neg (e (b + 1 + o)%nat); idea_neg (e (b + 2 - o)%nat); idea_inv (e (b + 3)%nat);
     e (c + 4)%nat; e (c + 5)%nat]) (seq 0 r) ++
  [idea_inv (e 0%nat); idea_neg (e 1%nat); idea_neg (e 2%nat); idea_inv (e 3%nat)].

(** idea.c:68-105 *)
Definition idea_setup (r : N) (key : list N) : idea :=
  let n := N.to_nat r in
  let ek := pfor (6 * n + 4 - 8) 8 idea_ext (key16b key 8) in
  {| idea_r := r; idea_ek := ek; idea_dk := idea_dec_key n ek |}.

(** idea.c:123-139, the body of the loop *)
Definition idea_body (k0 k1 k2 k3 k4 k5 : N) (x : N * N * N * N) : N * N * N * N :=
  let '(x0, x1, x2, x3) := x in
  let x0 := idea_mul x0 k0 in
  let x1 := wadd 16 x1 k1 in
  let x2 := wadd 16 x2 k2 in
  let x3 := idea_mul x3 k3 in
  let t0 := N.lxor x0 x2 in
  let t0 := idea_mul t0 k4 in
  let t1 := wadd 16 t0 (N.lxor x1 x3) in
  let t1 := idea_mul t1 k5 in
  let t0 := wadd 16 t0 t1 in
  let x0 := N.lxor x0 t1 in
  let x3 := N.lxor x3 t0 in
  let t0 := N.lxor t0 x1 in
  let x1 := N.lxor x2 t1 in
  let x2 := t0 in
  (x0, x1, x2, x3).

(** idea.c:107-150; the result is stored in the order x0, x2, x1, x3 *)
Definition idea_crypt (k : list N) (r : N) (inp : list N) : res (list N) :=
  let n := N.to_nat r in
  let* x := mfor n 0 (fun i x =>
    let b := (i * 6)%nat in
    let* k0 := get k b in
    let* k1 := get k (b + 1) in
    let* k2 := get k (b + 2) in
    let* k3 := get k (b + 3) in
    let* k4 := get k (b + 4) in
    let* k5 := get k (b + 5) in
    Ok (idea_body k0 k1 k2 k3 k4 k5 x)) (ld4 (k := 2) (ld := load16b) inp) in
  let '(x0, x1, x2, x3) := x in
  let b := (n * 6)%nat in
  let* k0 := get k b in
  let x0 := idea_mul x0 k0 in
  let* k1 := get k (b + 1) in
  let x2 := wadd 16 x2 k1 in
  let* k2 := get k (b + 2) in
  let x1 := wadd 16 x1 k2 in
  let* k3 := get k (b + 3) in
  let x3 := idea_mul x3 k3 in
  Ok (st4 (st := store16b) (x0, x2, x1, x3)).

(** idea.c:152-160 *)
Definition idea_encrypt (s : idea) (pt : list N) : res (list N) := idea_crypt (idea_ek s) (idea_r s) pt.
(** idea.c:162-170 *)
Definition idea_decrypt (s : idea) (ct : list N) : res (list N) := idea_crypt (idea_dk s) (idea_r s) ct.

Definition idea_maxkey : nat := 16.
Definition idea_rounds (r : N) : N := if r =? 0 then 8 else r.
(** idea.c:172-195: r * 24 + 16 bytes for the two key arrays; r * 24 is in 32 bits, the sum with sizeof and 16 in size_t *)
Definition idea_create (r : N) (key : list N) : res idea :=
  assert_ (key_len_ok idea_maxkey key)
    (let r := idea_rounds r in
     fits (24 * r + 16) (mask 32 (r * 24) + 16) (Ok (idea_setup r key))).
(** idea.c:203-224 *)
Definition idea_recreate (s : idea) (r : N) (key : list N) : res idea :=
  assert_ (key_len_ok idea_maxkey key)
    (let r := idea_rounds r in
     if r =? idea_r s then Ok (idea_setup r key) else Err UseAfterFree).
