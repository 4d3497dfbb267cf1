(** lib/block/gost.c *)
From Coq Require Import NArith Arith List Bool.
From Verif Require Import Lib.Word Lib.Res Model.LoadStore Model.BlockApi Lib.Bytes.
Import ListNotations.
Local Open Scope N_scope.

(** gost.c:29-42; [gost_s] is the table the descriptor points to (any eight
    rows of sixteen bytes: kripto_block_gost takes it from the caller). *)
Record gost := { gost_r : N; gost_s : list (list N); gost_k : list N }.

(** gost.c:44-54 and 56-60.  Masked indices, so the reads stay in the rows. *)
Definition gost_sub (sb : list (list N)) (j : nat) (x : N) : N :=
  wshl 32 (nth (N.to_nat (N.land (wshr x (4 * N.of_nat j)) 15)) (nth j sb []) 0) (4 * N.of_nat j).
Definition gost_f (sb : list (list N)) (x : N) : N :=
  let t := N.lor (N.lor (N.lor (N.lor (N.lor (N.lor (N.lor (gost_sub sb 7 x) (gost_sub sb 6 x)) (gost_sub sb 5 x))
    (gost_sub sb 4 x)) (gost_sub sb 3 x)) (gost_sub sb 2 x)) (gost_sub sb 1 x)) (gost_sub sb 0 x) in
  rol 32 t 11.

(** gost.c:72-73 and 93-94: one statement r ^= f(l + k) *)
Definition gost_step (sb : list (list N)) (l k : N) (r : N) : N := N.lxor r (gost_f sb (wadd 32 l k)).

(** gost.c:62-79.  The loop takes two key words per turn: ceil(r / 2) turns. *)
Definition gost_encrypt (s : gost) (pt : list N) : res (list N) :=
  let* x := mfor (N.to_nat ((gost_r s + 1) / 2)) 0 (fun i x =>
    let* ka := get (gost_k s) (2 * i) in
    let r := gost_step (gost_s s) (fst x) ka (snd x) in
    let* kb := get (gost_k s) (2 * i + 1) in
    let l := gost_step (gost_s s) r kb (fst x) in
    Ok (l, r)) (ld2 (k := 4) (ld := load32l) pt) in
  Ok (st2 (st := store32l) (snd x, fst x)).

(** gost.c:81-98.  For odd r the last turn reads k[-1]. *)
Definition gost_decrypt (s : gost) (ct : list N) : res (list N) :=
  let n := N.to_nat (gost_r s) in
  let* x := mfor (n / 2) 0 (fun i x =>
    let* ka := get (gost_k s) (n - 1 - 2 * i) in
    let r := gost_step (gost_s s) (fst x) ka (snd x) in
    let* kb := get (gost_k s) (n - 2 - 2 * i) in
    let l := gost_step (gost_s s) r kb (fst x) in
    Ok (l, r)) (ld2 (k := 4) (ld := load32l) ct) in
  if N.odd (gost_r s) then Err OobRead else
  Ok (st2 (st := store32l) (snd x, fst x)).

(** gost.c:100-134.  The key words (gost.c:110-117 loads them little-endian, the
    top word possibly partial), then copies of them, then the words reversed.
    The copy loop stops when r - i <= kl in unsigned arithmetic; with r >= 2 kl that
    is after r - 2 kl turns; for a smaller r the last loop writes past k[r-1]
    ([gost_create]). *)
Definition gost_kl (key : list N) : nat := (length key + 3) / 4.
Definition gost_setup (sb : list (list N)) (r : N) (key : list N) : gost :=
  let kl := gost_kl key in
  let k := key32l key kl in
  {| gost_r := r; gost_s := sb;
     gost_k := k ++ map (fun m => nth (m mod kl) k 0) (seq 0 (N.to_nat r - 2 * kl)) ++ rev k |}.

Definition gost_maxkey : nat := 32.
Definition gost_rounds (r : N) : N := if r =? 0 then 32 else r.
(** gost.c:141-172: (r << 2) bytes of key words *)
Definition gost_create (sb : list (list N)) (r : N) (key : list N) : res gost :=
  assert_ (key_len_ok gost_maxkey key)
    (let r := gost_rounds r in
     fits r (wshl 32 r 2 / 4) (fits (2 * N.of_nat (gost_kl key)) r (Ok (gost_setup sb r key)))).
(** gost.c:180-203 *)
Definition gost_recreate (sb : list (list N)) (s : gost) (r : N) (key : list N) : res gost :=
  assert_ (key_len_ok gost_maxkey key)
    (let r := gost_rounds r in
     if r =? gost_r s then fits (2 * N.of_nat (gost_kl key)) r (Ok (gost_setup (gost_s s) r key))
     else Err UseAfterFree).

(** gost.c:226-236 *)
Definition gost_cbr : list (list N) := [
   [0x4; 0xA; 0x9; 0x2; 0xD; 0x8; 0x0; 0xE; 0x6; 0xB; 0x1; 0xC; 0x7; 0xF; 0x5; 0x3];
   [0xE; 0xB; 0x4; 0xC; 0x6; 0xD; 0xF; 0xA; 0x2; 0x3; 0x8; 0x1; 0x0; 0x7; 0x5; 0x9];
   [0x5; 0x8; 0x1; 0xD; 0xA; 0x3; 0x4; 0x2; 0xE; 0xF; 0xC; 0x7; 0x6; 0x0; 0x9; 0xB];
   [0x7; 0xD; 0xA; 0x1; 0x0; 0x8; 0x9; 0xF; 0xE; 0x4; 0x6; 0xC; 0xB; 0x2; 0x5; 0x3];
   [0x6; 0xC; 0x7; 0x1; 0x5; 0xF; 0xD; 0x8; 0x4; 0xA; 0x9; 0xE; 0x0; 0x3; 0xB; 0x2];
   [0x4; 0xB; 0xA; 0x0; 0x7; 0x2; 0x1; 0xD; 0x3; 0x6; 0x8; 0x5; 0x9; 0xC; 0xF; 0xE];
   [0xD; 0xB; 0x4; 0x1; 0x3; 0xF; 0x5; 0x9; 0x0; 0xA; 0xE; 0x7; 0x6; 0x8; 0x2; 0xC];
   [0x1; 0xF; 0xD; 0x0; 0x5; 0x7; 0xA; 0x4; 0x9; 0x2; 0x3; 0xE; 0x6; 0xB; 0x8; 0xC]].
(** gost.c:243-253 *)
Definition gost_r3412 : list (list N) := [
   [0xC; 0x4; 0x6; 0x2; 0xA; 0x5; 0xB; 0x9; 0xE; 0x8; 0xD; 0x7; 0x0; 0x3; 0xF; 0x1];
   [0x6; 0x8; 0x2; 0x3; 0x9; 0xA; 0x5; 0xC; 0x1; 0xE; 0x4; 0x7; 0xB; 0xD; 0x0; 0xF];
   [0xB; 0x3; 0x5; 0x8; 0x2; 0xF; 0xA; 0xD; 0xE; 0x1; 0x7; 0x4; 0xC; 0x9; 0x6; 0x0];
   [0xC; 0x8; 0x2; 0x1; 0xD; 0x4; 0xF; 0x6; 0x7; 0x0; 0xA; 0x5; 0x3; 0xE; 0x9; 0xB];
   [0x7; 0xF; 0x5; 0xA; 0x8; 0x1; 0x6; 0xD; 0x0; 0x9; 0x3; 0xE; 0xB; 0x4; 0x2; 0xC];
   [0x5; 0xD; 0xF; 0x6; 0x9; 0x2; 0xC; 0xA; 0xB; 0x7; 0x8; 0x1; 0x4; 0x3; 0xE; 0x0];
   [0x8; 0xE; 0x2; 0x5; 0x6; 0x9; 0x1; 0xC; 0xF; 0x4; 0xB; 0x0; 0xD; 0xA; 0x3; 0x7];
   [0x1; 0x7; 0xE; 0xD; 0x0; 0x5; 0x8; 0x3; 0x4; 0xF; 0xA; 0x6; 0x9; 0xC; 0xB; 0x2]].
