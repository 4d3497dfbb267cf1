(** lib/block/rectangle.c *)
From Coq Require Import NArith Arith List Bool.
From Verif Require Import Lib.Word Lib.Res Lib.Bij Lib.Bits Model.LoadStore Model.BlockApi Lib.Bytes.
Import ListNotations.
Local Open Scope N_scope.

(** rectangle.c:30-35 *)
Record rectangle := { rect_rounds : N; rect_k : list N }.

(** rectangle.c:37-53 SUB_COLUMN; A B C D are registers 0-3, T0 is 4, T1 is 5 *)
Definition rect_sub_code : list instr :=
  [I BCopy 4 2 0; I BXor 2 2 1; I BNot 1 1 0; I BCopy 5 0 0; I BAnd 0 0 1; I BOr 1 1 3;
   I BXor 3 3 4; I BXor 0 0 3; I BXor 1 1 5; I BAnd 3 3 1; I BXor 3 3 2; I BOr 2 2 0;
   I BXor 2 2 1; I BXor 1 1 4]%nat.
(** rectangle.c:70-87 INV_SUB_COLUMN; T is register 4 *)
Definition rect_inv_code : list instr :=
  [I BCopy 4 0 0; I BAnd 0 0 2; I BXor 0 0 3; I BOr 3 3 4; I BXor 3 3 2; I BXor 1 1 3;
   I BCopy 2 1 0; I BXor 1 1 4; I BXor 1 1 0; I BNot 3 3 0; I BCopy 4 3 0; I BOr 3 3 1;
   I BXor 3 3 0; I BAnd 0 0 1; I BXor 0 0 4]%nat.
(** The type of A..D is uint16_t in the cipher and for short keys, uint8_t in the
    schedule of long keys; T0 and T1 are uint16_t, which makes no difference since
    every result is stored into A..D. *)
Definition rect_sub (w : N) : list N -> list N := slices w 2 rect_sub_code [0; 1; 2; 3]%nat.
Definition rect_inv (w : N) : list N -> list N := slices w 1 rect_inv_code [0; 1; 2; 3]%nat.

(** rectangle.c:55-60 *)
Definition rect_shift (x : list N) : list N :=
  [nth 0 x 0; rol 16 (nth 1 x 0) 1; rol 16 (nth 2 x 0) 12; rol 16 (nth 3 x 0) 13].
(** rectangle.c:89-94 *)
Definition rect_unshift (x : list N) : list N :=
  [nth 0 x 0; ror 16 (nth 1 x 0) 1; ror 16 (nth 2 x 0) 12; ror 16 (nth 3 x 0) 13].

(** rectangle.c:62-68: ADD_ROUND_KEY with k pointing at word [4 i] *)
Definition rect_add (ks : list N) (i : nat) (x : list N) : res (list N) :=
  let* k0 := get ks (4 * i) in
  let* k1 := get ks (4 * i + 1) in
  let* k2 := get ks (4 * i + 2) in
  let* k3 := get ks (4 * i + 3) in
  Ok [N.lxor (nth 0 x 0) k0; N.lxor (nth 1 x 0) k1; N.lxor (nth 2 x 0) k2; N.lxor (nth 3 x 0) k3].

(** rectangle.c:96-102 *)
Definition rect_rc : list N :=
  [0x01; 0x02; 0x04; 0x09; 0x12; 0x05; 0x0B; 0x16;
   0x0C; 0x19; 0x13; 0x07; 0x0F; 0x1F; 0x1E; 0x1C;
   0x18; 0x11; 0x03; 0x06; 0x0D; 0x1B; 0x17; 0x0E;
   0x1D].

(** rectangle.c:199-220 *)
Definition rect_enc_words (s : rectangle) (x : list N) : res (list N) :=
  let n := N.to_nat (rect_rounds s) in
  let* x := mfor n 0 (fun i x =>
    let* x := rect_add (rect_k s) i x in Ok (rect_shift (rect_sub 16 x))) x in
  rect_add (rect_k s) n x.
Definition rect_encrypt (s : rectangle) (pt : list N) : res (list N) :=
  let* y := rect_enc_words s (loads load16b 2 4 pt) in Ok (stores store16b y).

(** rectangle.c:222-243; pass i of the loop uses the words at 4 (i + 1) *)
Definition rect_dec_words (s : rectangle) (x : list N) : res (list N) :=
  let n := N.to_nat (rect_rounds s) in
  let* x := mford n (fun i x =>
    let* x := rect_add (rect_k s) (S i) x in Ok (rect_inv 16 (rect_unshift x))) x in
  rect_add (rect_k s) 0 x.
Definition rect_decrypt (s : rectangle) (ct : list N) : res (list N) :=
  let* y := rect_dec_words s (loads load16b 2 4 ct) in Ok (stores store16b y).

(** rectangle.c:127-146: one update of the 128-bit key register *)
Definition rect_next128 (i : nat) (k : list N) : list N :=
  let t := rect_sub 8 (map byte k) in
  let sub j := N.lor (N.land (nth j k 0) 0xFFFFFF00) (nth j t 0) in
  [N.lxor (N.lxor (rol 32 (sub 0%nat) 8) (sub 1%nat)) (nth i rect_rc 0);
   sub 2%nat; N.lxor (rol 32 (sub 2%nat) 16) (sub 3%nat); sub 0%nat].
(** rectangle.c:171-188: one update of the 80-bit key register *)
Definition rect_next80 (i : nat) (k : list N) : list N :=
  let t := rect_sub 16 (firstn 4 k) in
  let sub j := N.lor (N.land (nth j k 0) 0xFFF0) (N.land (nth j t 0) 0xF) in
  [N.lxor (N.lxor (rol 16 (sub 0%nat) 8) (sub 1%nat)) (nth i rect_rc 0);
   sub 2%nat; sub 3%nat; N.lxor (rol 16 (sub 3%nat) 12) (nth 4 k 0); sub 0%nat].

(** rectangle.c:119-153 and 166-192: the low 16 bits of the first four words are the
    round keys; rounds + 1 of them.  [i] stays below 25, the length of rc, by the
    assert in create. *)
Fixpoint rect_sched (next : nat -> list N -> list N) (n i : nat) (k : list N) : list N :=
  map (mask 16) (firstn 4 k) ++
  match n with O => [] | S n' => rect_sched next n' (S i) (next i k) end.

(** rectangle.c:104-197 *)
Definition rect_setup (r : N) (key : list N) : rectangle :=
  {| rect_rounds := r;
     rect_k := if Nat.ltb 10 (length key)
       then rect_sched rect_next128 (N.to_nat r) 0 (key32b key 4)
       else rect_sched rect_next80 (N.to_nat r) 0 (key16b key 5) |}.

Definition rect_maxkey : nat := 16.
Definition rect_r (r : N) : N := if r =? 0 then 25 else r.
(** rectangle.c:245-267 *)
Definition rect_create (r : N) (key : list N) : res rectangle :=
  assert_ (key_len_ok rect_maxkey key) (assert_ (r <=? 25) (Ok (rect_setup (rect_r r) key))).
(** rectangle.c:275-298 *)
Definition rect_recreate (s : rectangle) (r : N) (key : list N) : res rectangle :=
  assert_ (key_len_ok rect_maxkey key) (assert_ (r <=? 25)
    (if rect_r r =? rect_rounds s then Ok (rect_setup (rect_r r) key) else Err UseAfterFree)).
