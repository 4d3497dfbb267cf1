(** lib/block/noekeon.c *)
From Coq Require Import NArith Arith List Bool.
From Verif Require Import Lib.Word Lib.Res Lib.Bij Lib.Bits Model.LoadStore Model.BlockApi Lib.Bytes.
Import ListNotations.
Local Open Scope N_scope.

(** noekeon.c:29-35 *)
Record noekeon := { noek_rounds : N; noek_k : list N; noek_dk : list N }.

(** noekeon.c:37-44 *)
Definition noek_rc : list N :=
  [0x80; 0x1B; 0x36; 0x6C; 0xD8; 0xAB; 0x4D; 0x9A;
   0x2F; 0x5E; 0xBC; 0x63; 0xC6; 0x97; 0x35; 0x6A;
   0xD4; 0xB3; 0x7D; 0xFA; 0xEF; 0xC5; 0x91; 0x39;
   0x72; 0xE4; 0xD3; 0xBD; 0x61; 0xC2; 0x9F; 0x25;
   0x4A; 0x94].

(** noekeon.c:49 and 54: T ^= ROL32_08(T) ^ ROR32_08(T) *)
Definition noek_T (t : N) : N := N.lxor t (N.lxor (rol 32 t 8) (ror 32 t 8)).

Definition xor_at (i : nat) (v : N) (x : list N) : list N := upd x i (N.lxor (nth i x 0) v).

(** noekeon.c:46-57 THETA, statement by statement *)
Definition noek_theta (k x : list N) : list N :=
  let t := noek_T (N.lxor (nth 0 x 0) (nth 2 x 0)) in
  let x := xor_at 1 t x in
  let x := xor_at 3 t x in
  let x := xor_at 0 (nth 0 k 0) x in
  let x := xor_at 1 (nth 1 k 0) x in
  let x := xor_at 2 (nth 2 k 0) x in
  let x := xor_at 3 (nth 3 k 0) x in
  let t := noek_T (N.lxor (nth 1 x 0) (nth 3 x 0)) in
  let x := xor_at 0 t x in
  xor_at 2 t x.

(** noekeon.c:59-67 GAMMA; register 4 is T, register 5 holds the value of an
    inner expression *)
Definition noek_gamma_code : list instr :=
  [I BOr 5 3 2; I BNot 5 5 5; I BXor 1 1 5;
   I BAnd 5 2 1; I BXor 0 0 5;
   I BCopy 4 3 0; I BCopy 3 0 0; I BCopy 0 4 0;
   I BXor 5 0 1; I BXor 5 5 3; I BXor 2 2 5;
   I BOr 5 3 2; I BNot 5 5 5; I BXor 1 1 5;
   I BAnd 5 2 1; I BXor 0 0 5]%nat.
Definition noek_gamma : list N -> list N := slices 32 2 noek_gamma_code [0; 1; 2; 3]%nat.

(** noekeon.c:69-74 *)
Definition noek_pi1 (x : list N) : list N :=
  [nth 0 x 0; rol 32 (nth 1 x 0) 1; rol 32 (nth 2 x 0) 5; rol 32 (nth 3 x 0) 2].
(** noekeon.c:76-81 *)
Definition noek_pi2 (x : list N) : list N :=
  [nth 0 x 0; ror 32 (nth 1 x 0) 1; ror 32 (nth 2 x 0) 5; ror 32 (nth 3 x 0) 2].

(** noekeon.c:83-117 *)
Definition noek_enc_words (s : noekeon) (x : list N) : res (list N) :=
  let n := N.to_nat (noek_rounds s) in
  let* x := mfor n 0 (fun r x =>
    let* c := get noek_rc r in
    Ok (noek_pi2 (noek_gamma (noek_pi1 (noek_theta (noek_k s) (xor_at 0 c x)))))) x in
  let* c := get noek_rc n in
  Ok (noek_theta (noek_k s) (xor_at 0 c x)).
Definition noek_encrypt (s : noekeon) (pt : list N) : res (list N) :=
  let* y := noek_enc_words s (loads load32b 4 4 pt) in Ok (stores store32b y).

(** noekeon.c:119-153; the loop variable r of C is [S r] here *)
Definition noek_dec_words (s : noekeon) (x : list N) : res (list N) :=
  let n := N.to_nat (noek_rounds s) in
  let* x := mford n (fun r x =>
    let* c := get noek_rc (S r) in
    Ok (noek_pi2 (noek_gamma (noek_pi1 (xor_at 0 c (noek_theta (noek_dk s) x)))))) x in
  let* c := get noek_rc 0 in
  Ok (xor_at 0 c (noek_theta (noek_dk s) x)).
Definition noek_decrypt (s : noekeon) (ct : list N) : res (list N) :=
  let* y := noek_dec_words s (loads load32b 4 4 ct) in Ok (stores store32b y).

(** noekeon.c:155-176 *)
Definition noek_setup (r : N) (key : list N) : noekeon :=
  let k := key32b key 4 in
  {| noek_rounds := if r =? 0 then 16 else r; noek_k := k;
     noek_dk := noek_theta [0; 0; 0; 0] k |}.

Definition noek_maxkey : nat := 16.
(** noekeon.c:178-195 *)
Definition noek_create (r : N) (key : list N) : res noekeon :=
  assert_ (key_len_ok noek_maxkey key) (Ok (noek_setup r key)).
(** noekeon.c:197-209 *)
Definition noek_recreate (s : noekeon) (r : N) (key : list N) : res noekeon :=
  assert_ (key_len_ok noek_maxkey key) (Ok (noek_setup r key)).
