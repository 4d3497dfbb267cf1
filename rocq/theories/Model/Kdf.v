(** lib/pbkdf2.c and lib/scrypt.c.  Allocations succeed; wiping and freeing the buffers is not modelled. *)
From Coq Require Import NArith Arith List Bool.
From Verif Require Import Lib.Word Lib.Res Model.LoadStore Model.MacApi Model.Chacha Model.Salsa20.
Import ListNotations.
Local Open Scope N_scope.

(** pbkdf2.c:64-65: the counter, last byte first; without a byte left the assertion fails *)
Fixpoint pb_count (i : nat) (ctr : list N) : res (list N) :=
  let ctr := upd ctr i ((nth i ctr 0 + 1) mod 256) in
  if nth i ctr 0 =? 0 then match i with O => Err AssertFail | S i => pb_count i ctr end else Ok ctr.
(** pbkdf2.c:83-84 *)
Definition pb_xor (x : nat) (buf0 buf1 : list N) : list N := pfor x 0 (fun y b => upd b y (N.lxor (nth y b 0) (nth y buf0 0))) buf1.
(** pbkdf2.c:75-85 *)
Definition pb_step (d : mac) (r : N) (pass : list N) (x : nat) (p : mc_st d * list N * list N) : res (mc_st d * list N * list N) :=
  let '(m, buf0, buf1) := p in
  let* m := mac_recreate d m r pass x in
  let* m := mac_input d m buf0 in
  let* q := mac_tag d m x in
  Ok (fst q, snd q, pb_xor x (snd q) buf1).
(** pbkdf2.c:62-95; [fuel]: every pass writes at least a byte, unless the tags are empty *)
Fixpoint pb_loop (d : mac) (r : N) (iter : N) (pass salt : list N) (x : nat) (fuel : nat) (m : mc_st d) (ctr : list N) (len : nat) : res (list N) :=
  match fuel with
  | O => Err Loops
  | S fuel =>
    let* ctr := pb_count 3 ctr in
    let* m := mac_input d m salt in
    let* m := mac_input d m ctr in
    let* q := mac_tag d m x in
    let* p := mfor (N.to_nat (iter - 1)) 0 (fun _ => pb_step d r pass x) (fst q, snd q, snd q) in
    let out := firstn (Nat.min x len) (snd p) in
    let rest := (len - Nat.min x len)%nat in
    if (rest =? 0)%nat then Ok out else
    let* m := mac_recreate d (fst (fst p)) r pass x in
    let* o := pb_loop d r iter pass salt x fuel m ctr rest in
    Ok (out ++ o)
  end.
(** pbkdf2.c:27-110: assert(iter) (49), the length of the tags (51-52), create (59) *)
Definition pbkdf2 (d : mac) (r : N) (iter : N) (pass salt : list N) (len : nat) : res (list N) :=
  assert_ (negb (iter =? 0)) (
  let x := if (len <? mc_maxtag d)%nat then len else mc_maxtag d in
  let* m := mac_create d r pass x in
  pb_loop d r iter pass salt x (S len) m [0; 0; 0; 0] len).

(** Words at an offset of an array *)
Definition get_words (w : list N) (o n : nat) : res (list N) := if (o + n <=? length w)%nat then Ok (firstn n (skipn o w)) else Err OobRead.
Definition put_words (w : list N) (o : nat) (l : list N) : res (list N) :=
  if (o + length l <=? length w)%nat then Ok (firstn o w ++ l ++ skipn (o + length l) w) else Err OobWrite.
Definition xor_words (a b : list N) : list N := map (fun p => N.lxor (fst p) (snd p)) (combine a b).
(** scrypt.c:28-34 and 36-118 *)
Definition sc_core (x : list N) : list N := add_words x (s20_rounds 8 x).
(** scrypt.c:120-154; b and t are at the offsets [b] and [t] of the array.  127-147 and 149-153 *)
Definition sc_chain (b t i : nat) (p : list N * list N) : res (list N * list N) :=
  let* y := get_words (fst p) (b + 16 * i) 16 in
  let x := sc_core (xor_words (snd p) y) in
  let* w := put_words (fst p) (t + 16 * i) x in
  Ok (w, x).
Definition sc_shuffle (b t r i : nat) (w : list N) : res (list N) :=
  let* y := get_words w (t + 32 * i) 16 in
  let* w := put_words w (b + 16 * i) y in
  let* y := get_words w (t + 32 * i + 16) 16 in
  put_words w (b + 16 * (i + r)) y.
Definition sc_blockmix (w : list N) (b t r : nat) : res (list N) :=
  let* x := get_words w (b + 32 * r - 16) 16 in
  let* p := mfor (2 * r) 0 (sc_chain b t) (w, x) in
  mfor r 0 (sc_shuffle b t r) (fst p).
(** scrypt.c:156-202; t0, t1 and t2 are at the offsets [t0], [t1] and [t2] of the array.  183-187 (copying words onto themselves leaves
    them) and 189-198 *)
Definition sc_fill (r t0 t1 t2 i : nat) (w : list N) : res (list N) :=
  let* y := get_words w t1 (32 * r) in
  let* w := put_words w (t0 + 32 * r * i) y in
  sc_blockmix w t1 t2 r.
Definition sc_use (r : nat) (n : N) (t0 t1 t2 : nat) (w : list N) : res (list N) :=
  let* h := get w (t1 + 32 * r - 15) in
  let* l := get w (t1 + 32 * r - 16) in
  let tn := N.land (N.lor (N.shiftl h 32) l) (n - 1) in
  let* y := get_words w t1 (32 * r) in
  let* z := get_words w (t0 + 32 * r * N.to_nat tn) (32 * r) in
  let* w := put_words w t1 (xor_words y z) in
  sc_blockmix w t1 t2 r.
Definition sc_smix (b : list N) (r : nat) (n : N) (t0 t1 t2 : nat) (w : list N) : res (list N * list N) :=
  let* w := put_words w t1 (loads load32l 4 (32 * r) b) in
  let* w := mfor (N.to_nat n) 0 (sc_fill r t0 t1 t2) w in
  let* w := mfor (N.to_nat n) 0 (fun _ => sc_use r n t0 t1 t2) w in
  let* y := get_words w t1 (32 * r) in
  Ok (stores store32l y, w).
(** scrypt.c:243-244: part [i] of b *)
Definition sc_part (t1 t2 : nat) (n : N) (r i : nat) (q : list N * list N) : res (list N * list N) :=
  let* z := sc_smix (firstn (128 * r) (skipn (128 * r * i) (fst q))) r n 0 t1 t2 (snd q) in
  let* b := put_words (fst q) (128 * r * i) (fst z) in
  Ok (b, snd z).
(** scrypt.c:204-284.  The words after b are the array [junk] with its contents from malloc; t0 is its start.  Where to put t1 and t2 is
    a parameter.  The sizes are computed in 32 bits (223, 226, 239, 252); greater ones, for which b is too small, end here. *)
Definition scrypt_at (t1 t2 : nat) (d : mac) (mr n : N) (r p : nat) (pass salt : list N) (len : nat) (junk : list N) : res (list N) :=
  if 2 ^ 32 <=? 128 * N.of_nat r * N.of_nat p then Err OobWrite else
  let* b := pbkdf2 d mr 1 pass salt (128 * r * p) in
  let* q := mfor p 0 (sc_part t1 t2 n r) (b, junk) in
  pbkdf2 d mr 1 pass (fst q) len.
(** scrypt.c:226-228: t1 = t0 + (r << 5), t2 = t1 + (r << 5) *)
Definition scrypt (d : mac) (mr n : N) (r p : nat) (pass salt : list N) (len : nat) (junk : list N) : res (list N) :=
  scrypt_at (32 * r) (32 * r + 32 * r) d mr n r p pass salt len junk.
(** scrypt.c:223: the room for the words *)
Definition scrypt_room (n : N) (r : nat) : nat := (32 * r * N.to_nat n + 64 * r)%nat.
