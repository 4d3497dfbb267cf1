(** lib/block/threefish256.c, threefish512.c, threefish1024.c: one definition with
    the number of words and the tables of MIX statements as parameters. *)
From Coq Require Import NArith Arith List Bool.
From Verif Require Import Lib.Word Lib.Res Lib.Bij Model.LoadStore Model.BlockApi Lib.Bytes.
Import ListNotations.
Local Open Scope N_scope.

(** One line [xa += xb; xb = ROL64_n(xb); xb ^= xa;] of the C code is [(a, b, n)]. *)
Definition mixop : Type := nat * nat * N.
Definition M (a b : nat) (n : N) : mixop := (a, b, n).

Definition tf_mix (o : mixop) (x : list N) : list N :=
  let '(a, b, n) := o in
  let x := upd x a (wadd 64 (nth a x 0) (nth b x 0)) in
  upd x b (N.lxor (rol 64 (nth b x 0) n) (nth a x 0)).

(** One line [xb = ROR64_n(xb ^ xa); xa -= xb;] is [(a, b, n)]. *)
Definition tf_unmix (o : mixop) (x : list N) : list N :=
  let '(a, b, n) := o in
  let x := upd x b (ror 64 (N.lxor (nth b x 0) (nth a x 0)) n) in
  upd x a (wsub 64 (nth a x 0) (nth b x 0)).

Record tf_par := {
  tf_n : nat;                 (* words in a block *)
  tf_e1 : list mixop;         (* first half of the encryption loop body *)
  tf_e2 : list mixop;         (* second half *)
  tf_d1 : list mixop;         (* first half of the decryption loop body *)
  tf_d2 : list mixop;         (* second half *)
  tf_def : N;                 (* default rounds *)
}.

(** threefish256.c:66-77, 84-95, 130-141, 148-159, 179 *)
Definition threefish256 : tf_par := {|
  tf_n := 4;
  tf_e1 := [M 0 1 14; M 2 3 16; M 0 3 52; M 2 1 57; M 0 1 23; M 2 3 40; M 0 3 5; M 2 1 37];
  tf_e2 := [M 0 1 25; M 2 3 33; M 0 3 46; M 2 1 12; M 0 1 58; M 2 3 22; M 0 3 32; M 2 1 32];
  tf_d1 := [M 2 1 32; M 0 3 32; M 2 3 22; M 0 1 58; M 2 1 12; M 0 3 46; M 2 3 33; M 0 1 25];
  tf_d2 := [M 2 1 37; M 0 3 5; M 2 3 40; M 0 1 23; M 2 1 57; M 0 3 52; M 2 3 16; M 0 1 14];
  tf_def := 72 |}.

(** threefish512.c:70-88, 100-118, 170-188, 200-218 *)
Definition threefish512 : tf_par := {|
  tf_n := 8;
  tf_e1 := [M 0 1 46; M 2 3 36; M 4 5 19; M 6 7 37; M 2 1 33; M 4 7 27; M 6 5 14; M 0 3 42;
            M 4 1 17; M 6 3 49; M 0 5 36; M 2 7 39; M 6 1 44; M 0 7 9; M 2 5 54; M 4 3 56];
  tf_e2 := [M 0 1 39; M 2 3 30; M 4 5 34; M 6 7 24; M 2 1 13; M 4 7 50; M 6 5 10; M 0 3 17;
            M 4 1 25; M 6 3 29; M 0 5 39; M 2 7 43; M 6 1 8; M 0 7 35; M 2 5 56; M 4 3 22];
  tf_d1 := [M 4 3 22; M 2 5 56; M 0 7 35; M 6 1 8; M 2 7 43; M 0 5 39; M 6 3 29; M 4 1 25;
            M 0 3 17; M 6 5 10; M 4 7 50; M 2 1 13; M 6 7 24; M 4 5 34; M 2 3 30; M 0 1 39];
  tf_d2 := [M 4 3 56; M 2 5 54; M 0 7 9; M 6 1 44; M 2 7 39; M 0 5 36; M 6 3 49; M 4 1 17;
            M 0 3 42; M 6 5 14; M 4 7 27; M 2 1 33; M 6 7 37; M 4 5 19; M 2 3 36; M 0 1 46];
  tf_def := 72 |}.

(** threefish1024.c:79-113, 133-167, 251-285, 305-339, 386 *)
Definition threefish1024 : tf_par := {|
  tf_n := 16;
  tf_e1 := [M 0 1 24; M 2 3 13; M 4 5 8; M 6 7 47; M 8 9 8; M 10 11 17; M 12 13 22; M 14 15 37;
            M 0 9 38; M 2 13 19; M 6 11 10; M 4 15 55; M 10 7 49; M 12 3 18; M 14 5 23; M 8 1 52;
            M 0 7 33; M 2 5 4; M 4 3 51; M 6 1 13; M 12 15 34; M 14 13 41; M 8 11 59; M 10 9 17;
            M 0 15 5; M 2 11 20; M 6 13 48; M 4 9 41; M 14 1 47; M 8 5 28; M 10 3 16; M 12 7 25];
  tf_e2 := [M 0 1 41; M 2 3 9; M 4 5 37; M 6 7 31; M 8 9 12; M 10 11 47; M 12 13 44; M 14 15 30;
            M 0 9 16; M 2 13 34; M 6 11 56; M 4 15 51; M 10 7 4; M 12 3 53; M 14 5 42; M 8 1 41;
            M 0 7 31; M 2 5 44; M 4 3 47; M 6 1 46; M 12 15 19; M 14 13 42; M 8 11 44; M 10 9 25;
            M 0 15 9; M 2 11 48; M 6 13 35; M 4 9 52; M 14 1 23; M 8 5 31; M 10 3 37; M 12 7 20];
  tf_d1 := [M 12 7 20; M 10 3 37; M 8 5 31; M 14 1 23; M 4 9 52; M 6 13 35; M 2 11 48; M 0 15 9;
            M 10 9 25; M 8 11 44; M 14 13 42; M 12 15 19; M 6 1 46; M 4 3 47; M 2 5 44; M 0 7 31;
            M 8 1 41; M 14 5 42; M 12 3 53; M 10 7 4; M 4 15 51; M 6 11 56; M 2 13 34; M 0 9 16;
            M 14 15 30; M 12 13 44; M 10 11 47; M 8 9 12; M 6 7 31; M 4 5 37; M 2 3 9; M 0 1 41];
  tf_d2 := [M 12 7 25; M 10 3 16; M 8 5 28; M 14 1 47; M 4 9 41; M 6 13 48; M 2 11 20; M 0 15 5;
            M 10 9 17; M 8 11 59; M 14 13 41; M 12 15 34; M 6 1 13; M 4 3 51; M 2 5 4; M 0 7 33;
            M 8 1 52; M 14 5 23; M 12 3 18; M 10 7 49; M 4 15 55; M 6 11 10; M 2 13 19; M 0 9 38;
            M 14 15 37; M 12 13 22; M 10 11 17; M 8 9 8; M 6 7 47; M 4 5 8; M 2 3 13; M 0 1 24];
  tf_def := 80 |}.

(** threefish256.c:31-37; [tf_k] has n + 1 words, [tf_t] has 3 *)
Record threefish := { tf_rounds : N; tf_t : list N; tf_k : list N }.

Section Threefish.
  Variable p : tf_par.
  Let n := tf_n p.

  (** The value added to word [i] after [r] groups of four rounds; threefish256.c:57-60
      and 161-164 ([r = 0]), 78-81, 96-99, 124-127, 142-145. *)
  Definition tf_sub (s : threefish) (r : nat) (i : nat) : N :=
    let k := nth (Nat.modulo (r + i) (n + 1)) (tf_k s) 0 in
    if Nat.eqb i (n - 3) then wadd 64 k (nth (Nat.modulo r 3) (tf_t s) 0)
    else if Nat.eqb i (n - 2) then wadd 64 k (nth (Nat.modulo (r + 1) 3) (tf_t s) 0)
    else if Nat.eqb i (n - 1) then wadd 64 k (N.of_nat r)
    else k.

  Definition tf_add (s : threefish) (r : nat) (x : list N) : list N :=
    prun (fun i y => upd y i (wadd 64 (nth i y 0) (tf_sub s r i))) (seq 0 n) x.
  Definition tf_unadd (s : threefish) (r : nat) (x : list N) : list N :=
    prun (fun i y => upd y i (wsub 64 (nth i y 0) (tf_sub s r i))) (seq 0 n) x.

  (** loop body threefish256.c:66-100, entered with the value [r] *)
  Definition tf_enc_body (s : threefish) (r : nat) (x : list N) : list N :=
    tf_add s (S r) (prun tf_mix (tf_e2 p) (tf_add s r (prun tf_mix (tf_e1 p) x))).
  (** loop body threefish256.c:124-159, entered with the value [S r] *)
  Definition tf_dec_body (s : threefish) (r : nat) (x : list N) : list N :=
    prun tf_unmix (tf_d2 p) (tf_unadd s r (prun tf_unmix (tf_d1 p) (tf_unadd s (S r) x))).

  (** threefish256.c:64-101: while(r <= R), r += 2, from r = 1; [fuel] is [R] *)
  Fixpoint tf_enc_loop (s : threefish) (fuel r R : nat) (x : list N) : list N :=
    match fuel with
    | O => x
    | S f => if Nat.leb r R then tf_enc_loop s f (S (S r)) R (tf_enc_body s r x) else x
    end.

  (** threefish256.c:122-160: while(r > 1), r -= 2 *)
  Fixpoint tf_dec_loop (s : threefish) (r : nat) (x : list N) : list N :=
    match r with
    | S (S r') => tf_dec_loop s r' (tf_dec_body s (S r') x)
    | _ => x
    end.

  (** threefish256.c:50-106 *)
  Definition tf_encrypt (s : threefish) (pt : list N) : res (list N) :=
    let R := N.to_nat (wshr (tf_rounds s) 2) in
    Ok (stores store64l (tf_enc_loop s R 1 R (tf_add s 0 (loads load64l 8 n pt)))).

  (** threefish256.c:108-170 *)
  Definition tf_decrypt (s : threefish) (ct : list N) : res (list N) :=
    let R := N.to_nat (wshr (tf_rounds s) 2) in
    Ok (stores store64l (tf_unadd s 0 (tf_dec_loop s R (loads load64l 8 n ct)))).

  Definition tf_maxkey : nat := 8 * n.
  Definition tf_maxtweak : nat := 16.

  (** threefish256.c:172-189 *)
  Definition tf_setup (r : N) (key : list N) : threefish :=
    let k := key64l key n in
    {| tf_rounds := if r =? 0 then tf_def p else r;
       tf_t := [0; 0; 0];
       tf_k := k ++ [N.lxor (fold_left N.lxor k 0) 0x1BD11BDAA9FC1A22] |}.

  Definition tf_create (r : N) (key : list N) : res threefish :=
    assert_ (key_len_ok tf_maxkey key) (Ok (tf_setup r key)).
  Definition tf_recreate (s : threefish) (r : N) (key : list N) : res threefish :=
    assert_ (key_len_ok tf_maxkey key) (Ok (tf_setup r key)).

  (** threefish256.c:39-48.  LOAD64L_ARRAY writes tweak bytes 16.. to t[2] (which is
      then overwritten) and bytes 24.. to the key words that follow in the struct;
      [kripto_block_tweak] (lib/block.c:63-78) does not limit the length.  The model
      rejects lengths above 16 as an out-of-bounds write of the tweak words. *)
  Definition tf_tweak (s : threefish) (tweak : list N) : res threefish :=
    if Nat.leb (length tweak) tf_maxtweak then
      let t := key64l tweak 2 in
      Ok {| tf_rounds := tf_rounds s;
            tf_t := t ++ [N.lxor (nth 0 t 0) (nth 1 t 0)];
            tf_k := tf_k s |}
    else Err OobWrite.
End Threefish.
