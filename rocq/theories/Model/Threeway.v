(** lib/block/3way.c *)
From Coq Require Import NArith Arith List Bool.
From Verif Require Import Lib.Word Lib.Res Model.LoadStore Model.BlockApi Lib.Bytes.
Import ListNotations.
Local Open Scope N_scope.

(** 3way.c:31-37 *)
Record threeway := { tw_r : N; tw_k : list N; tw_dk : list N }.

(** 3way.c:39-44 *)
Definition tw_rc_e : list N :=
  [0x0B0B; 0x1616; 0x2C2C; 0x5858; 0xB0B0; 0x7171; 0xE2E2; 0xD5D5;
   0xBBBB; 0x6767; 0xCECE; 0x8D8D].
(** 3way.c:46-51 *)
Definition tw_rc_d : list N :=
  [0xB1B1; 0x7373; 0xE6E6; 0xDDDD; 0xABAB; 0x4747; 0x8E8E; 0x0D0D;
   0x1A1A; 0x3434; 0x6868; 0xD0D0].

(** 3way.c:53-61, the portable branch *)
Definition rev_bytes (x : N) : N :=
  N.lor (N.land (ror 32 x 8) 0xFF00FF00) (N.land (rol 32 x 8) 0x00FF00FF).
(** 3way.c:63-69 *)
Definition rev_bits (x : N) : N :=
  let x := N.lor (wshr (N.land x 0xAAAAAAAA) 1) (wshl 32 (N.land x 0x55555555) 1) in
  let x := N.lor (wshr (N.land x 0xCCCCCCCC) 2) (wshl 32 (N.land x 0x33333333) 2) in
  N.lor (wshr (N.land x 0xF0F0F0F0) 4) (wshl 32 (N.land x 0x0F0F0F0F) 4).
(** 3way.c:71-79 *)
Definition tw_mu (x : list N) : list N :=
  [rev_bits (nth 2 x 0); rev_bits (nth 1 x 0); rev_bits (nth 0 x 0)].
(** 3way.c:81-91 *)
Definition tw_pgp (x : list N) : list N :=
  let b := nth 1 x 0 in
  let t2 := rol 32 (nth 2 x 0) 1 in
  let t0 := rol 32 (nth 0 x 0) 22 in
  [rol 32 (N.lxor t0 (N.lor b (wnot 32 t2))) 1;
   N.lxor b (N.lor t2 (wnot 32 t0));
   rol 32 (N.lxor t2 (N.lor t0 (wnot 32 b))) 22].
(** 3way.c:94-107 *)
Definition tw_theta (x : list N) : list N :=
  let a := nth 0 x 0 in
  let b := nth 1 x 0 in
  let c := nth 2 x 0 in
  let s := N.lxor (N.lxor a b) c in
  let s := N.lxor (rol 32 s 16) (rol 32 s 8) in
  let t0 := N.lxor (N.lxor (N.lxor (wshl 32 a 24) (wshr c 8)) (wshl 32 b 8)) (wshr a 24) in
  let t1 := N.lxor (N.lxor (N.lxor (wshl 32 b 24) (wshr a 8)) (wshl 32 c 8)) (wshr b 24) in
  [N.lxor a (N.lxor s t0); N.lxor b (N.lxor s t1);
   N.lxor c (N.lxor (N.lxor s (wshr t0 16)) (wshl 32 t1 16))].

(** 3way.c:125-127: x[0] ^= k[0] ^ (rc << 16), x[1] ^= k[1], x[2] ^= k[2] ^ rc.
    In C rc is promoted to int, and rc << 16 overflows int for rc >= 0x8000; the
    model uses the wrapped value (what gcc and clang compute). *)
Definition tw_add (k : list N) (rc : N) (x : list N) : list N :=
  [N.lxor (nth 0 x 0) (N.lxor (nth 0 k 0) (wshl 32 rc 16));
   N.lxor (nth 1 x 0) (nth 1 k 0);
   N.lxor (nth 2 x 0) (N.lxor (nth 2 k 0) rc)].

(** 3way.c:123-134 with rc_e, 156-167 with rc_d *)
Definition tw_rounds (rcs : list N) (k : list N) (r : nat) (x : list N) : res (list N) :=
  let* x := mfor r 0 (fun i x =>
    let* c := get rcs i in Ok (tw_pgp (tw_theta (tw_add k c x)))) x in
  let* c := get rcs r in
  Ok (tw_theta (tw_add k c x)).

(** 3way.c:109-139 *)
Definition tw_encrypt (s : threeway) (pt : list N) : res (list N) :=
  let* x := tw_rounds tw_rc_e (tw_k s) (N.to_nat (tw_r s)) (loads load32b 4 3 pt) in
  Ok (stores store32b x).
(** 3way.c:141-173 *)
Definition tw_decrypt (s : threeway) (ct : list N) : res (list N) :=
  let* x := tw_rounds tw_rc_d (tw_dk s) (N.to_nat (tw_r s)) (tw_mu (loads load32l 4 3 ct)) in
  Ok (stores store32l (tw_mu x)).

(** 3way.c:175-200 *)
Definition tw_setup (r : N) (key : list N) : threeway :=
  let k := key32b key 3 in
  {| tw_r := if r =? 0 then 11 else r; tw_k := k;
     tw_dk := map rev_bytes (tw_mu (tw_theta k)) |}.

Definition tw_maxkey : nat := 12.
(** 3way.c:202-216 *)
Definition tw_create (r : N) (key : list N) : res threeway :=
  assert_ (key_len_ok tw_maxkey key) (Ok (tw_setup r key)).
Definition tw_recreate (s : threeway) (r : N) (key : list N) : res threeway :=
  assert_ (key_len_ok tw_maxkey key) (Ok (tw_setup r key)).
