(** lib/hash/blake256.c, blake512.c, blake2s.c, blake2b.c.  The files of a pair have the same functions for words of
    32 and 64 bits; the differences are in [blakep].  Line numbers are those of blake256.c and blake2s.c. *)
From Coq Require Import NArith Arith List Bool.
From Verif Require Import Lib.Word Lib.Res Model.LoadStore Model.HashApi Model.Md Model.BlockBuf.
Import ListNotations.
Local Open Scope N_scope.

(** blake256.c:42-54, the same table in blake512.c:43-55, blake2s.c:41-53, blake2b.c:41-53 *)
Definition bk_sigma : list (list nat) :=
  [[ 0;  1;  2;  3;  4;  5;  6;  7;  8;  9; 10; 11; 12; 13; 14; 15];
   [14; 10;  4;  8;  9; 15; 13;  6;  1; 12;  0;  2; 11;  7;  5;  3];
   [11;  8; 12;  0;  5;  2; 15; 13; 10; 14;  3;  6;  7;  1;  9;  4];
   [ 7;  9;  3;  1; 13; 12; 11; 14;  2;  6;  5; 10;  4;  0; 15;  8];
   [ 9;  0;  5;  7;  2;  4; 10; 15; 14;  1; 11; 12;  6;  8;  3; 13];
   [ 2; 12;  6; 10;  0; 11;  8;  3;  4; 13;  7;  5; 15; 14;  1;  9];
   [12;  5;  1; 15; 14; 13;  4; 10;  0;  7;  6;  3;  9;  2;  8; 11];
   [13; 11;  7; 14; 12;  1;  3;  9;  5;  0; 15;  4;  8;  6;  2; 10];
   [ 6; 15; 14;  9; 11;  3;  0;  8; 12;  2; 13;  7;  1;  4; 10;  5];
   [10;  2;  8;  4;  7;  6;  1;  5; 15; 11;  9; 14;  3; 12; 13;  0]]%nat.
(** blake256.c:56-62 *)
Definition blake256_K : list N :=
  [0x243F6A88; 0x85A308D3; 0x13198A2E; 0x03707344; 0xA4093822; 0x299F31D0; 0x082EFA98; 0xEC4E6C89;
   0x452821E6; 0x38D01377; 0xBE5466CF; 0x34E90C6C; 0xC0AC29B7; 0xC97C50DD; 0x3F84D5B5; 0xB5470917].
(** blake512.c:57-67 *)
Definition blake512_K : list N :=
  [0x243F6A8885A308D3; 0x13198A2E03707344; 0xA4093822299F31D0; 0x082EFA98EC4E6C89;
   0x452821E638D01377; 0xBE5466CF34E90C6C; 0xC0AC29B7C97C50DD; 0x3F84D5B5B5470917;
   0x9216D5D98979FB1B; 0xD1310BA698DFB5AC; 0x2FFD72DBD01ADFB7; 0xB8E1AFED6A267E96;
   0xBA7C9045F12C7F99; 0x24A19947B3916CF7; 0x0801F2E2858EFC16; 0x636920D871574E69].
(** blake2s.c:55-59, also blake256.c:82-89 *)
Definition blake2s_IV : list N :=
  [0x6A09E667; 0xBB67AE85; 0x3C6EF372; 0xA54FF53A; 0x510E527F; 0x9B05688C; 0x1F83D9AB; 0x5BE0CD19].
(** blake2b.c:55-61, also blake512.c:87-94 *)
Definition blake2b_IV : list N :=
  [0x6A09E667F3BCC908; 0xBB67AE8584CAA73B; 0x3C6EF372FE94F82B; 0xA54FF53A5F1D36F1;
   0x510E527FADE682D1; 0x9B05688C2B3E6C1F; 0x1F83D9ABFB41BD6B; 0x5BE0CD19137E2179].

(** what differs: word size, bytes of a word, the four rotations of G, loads and stores, default rounds *)
Record blakep := {
  bp_w : N; bp_k : nat; bp_rot : N * N * N * N;
  bp_load : list N -> nat -> N; bp_store : N -> list N; bp_words : list N -> nat -> list N;
  bp_array : list N -> nat -> nat -> list N; bp_r : N }.
Definition blake256p : blakep := {|
  bp_w := 32; bp_k := 4; bp_rot := (16, 12, 8, 7); bp_load := load32b; bp_store := store32b; bp_words := key32b;
  bp_array := store32b_array; bp_r := 14 |}.
Definition blake512p : blakep := {|
  bp_w := 64; bp_k := 8; bp_rot := (32, 25, 16, 11); bp_load := load64b; bp_store := store64b; bp_words := key64b;
  bp_array := store64b_array; bp_r := 16 |}.
Definition blake2sp : blakep := {|
  bp_w := 32; bp_k := 4; bp_rot := (16, 12, 8, 7); bp_load := load32l; bp_store := store32l; bp_words := key32l;
  bp_array := store32l_array; bp_r := 10 |}.
Definition blake2bp : blakep := {|
  bp_w := 64; bp_k := 8; bp_rot := (32, 24, 16, 63); bp_load := load64l; bp_store := store64l; bp_words := key64l;
  bp_array := store64l_array; bp_r := 12 |}.

(** The eight calls of G of a round (blake256.c:164-172, blake2s.c:146-154): registers, first index into SIGMA[i] *)
Definition bk_calls : list (nat * nat * nat * nat * nat) :=
  [(0, 4, 8, 12, 0); (1, 5, 9, 13, 2); (2, 6, 10, 14, 4); (3, 7, 11, 15, 6);
   (0, 5, 10, 15, 8); (1, 6, 11, 12, 10); (2, 7, 8, 13, 12); (3, 4, 9, 14, 14)]%nat.

Section Core.
  Variable p : blakep.
  Notation "x +w y" := (wadd (bp_w p) x y) (at level 50, left associativity).
  (** blake256.c:110-121, blake2s.c:92-103: G on values; [x] and [y] are the two words added *)
  Definition bk_g (a b c d x y : N) : N * N * N * N :=
    let '(r1, r2, r3, r4) := bp_rot p in
    let a := a +w (b +w x) in let d := ror (bp_w p) (N.lxor d a) r1 in
    let c := c +w d in let b := ror (bp_w p) (N.lxor b c) r2 in
    let a := a +w (b +w y) in let d := ror (bp_w p) (N.lxor d a) r3 in
    let c := c +w d in let b := ror (bp_w p) (N.lxor b c) r4 in
    (a, b, c, d).
  (** one call: [inj] gives the two words from the two indices *)
  Definition bk_call (inj : nat -> nat -> N * N) (sg : list nat) (v : list N) (q : nat * nat * nat * nat * nat) : list N :=
    let '(a, b, c, d, e) := q in
    let '(x, y) := inj (nth e sg 0%nat) (nth (e + 1) sg 0%nat) in
    let '(va, vb, vc, vd) := bk_g (nth a v 0) (nth b v 0) (nth c v 0) (nth d v 0) x y in
    upd (upd (upd (upd v a va) b vb) c vc) d vd.
  (** blake256.c:160-173, blake2s.c:142-155: i counts 0 .. 9, 0 .. *)
  Definition bk_rounds (inj : nat -> nat -> N * N) (r : N) (v : list N) : list N :=
    fst (pfor (N.to_nat r) 0 (fun _ x =>
      let i := if Nat.eqb (snd x) 10 then 0%nat else snd x in
      (fold_left (bk_call inj (nth i bk_sigma [])) bk_calls (fst x), S i)) (v, 0%nat)).
  (** blake256.c:143-158, blake2s.c:125-140 *)
  Definition bk_block (data : list N) : list N := map (fun i => bp_load p data (bp_k p * i)%nat) (seq 0 16).
  (** "len[0] += n; if(len[0] < n) { len[1]++; assert(len[1]); }" *)
  Definition bk_count (n : N) (len : N * N) : res (N * N) :=
    let l0 := fst len +w n in
    if l0 <? n then let l1 := snd len +w 1 in assert_ (negb (l1 =? 0)) (Ok (l0, l1)) else Ok (l0, snd len).
End Core.

(** ** BLAKE *)
(** blake256.c:30-40: [bk_b] holds len, h, buf and i *)
Definition bk_acc := ((N * N) * list N)%type.
Record blake := { bk_r : N; bk_s : list N; bk_o : nat; bk_b : bb bk_acc }.

Section Blake.
  Variables (p : blakep) (K : list N) (iv : nat -> list N) (thr : nat).
  Let k := bp_k p.
  Let bs := (16 * bp_k p)%nat.
  (** blake256.c:123-185; the counter is not changed *)
  Definition bk_process (r : N) (s : list N) (a : bk_acc) (data : list N) : res bk_acc :=
    let '((l0, l1), h) := a in
    let m := bk_block p data in
    let at_ l i := nth i l 0 in
    let v := h ++ [N.lxor (at_ K 0%nat) (at_ s 0%nat); N.lxor (at_ K 1%nat) (at_ s 1%nat); N.lxor (at_ K 2%nat) (at_ s 2%nat); N.lxor (at_ K 3%nat) (at_ s 3%nat);
                   N.lxor (at_ K 4%nat) l0; N.lxor (at_ K 5%nat) l0; N.lxor (at_ K 6%nat) l1; N.lxor (at_ K 7%nat) l1] in
    let v := bk_rounds p (fun s0 s1 => (N.lxor (at_ m s0) (at_ K s1), N.lxor (at_ m s1) (at_ K s0))) r v in
    Ok ((l0, l1), map (fun i => N.lxor (at_ h i) (N.lxor (N.lxor (at_ v i) (at_ v (i + 8)%nat)) (at_ s (i mod 4)%nat))) (seq 0 8)).
  (** blake256.c:200-208 *)
  Definition bk_step (r : N) (s : list N) (a : bk_acc) (data : list N) : res bk_acc :=
    let* len := bk_count p (N.of_nat (8 * bs)) (fst a) in bk_process r s (len, snd a) data.
  (** blake256.c:64-108; buf is not touched *)
  Definition bk_start (r : N) (salt : list N) (n : nat) (buf : list N) : blake :=
    {| bk_r := if r =? 0 then bp_r p else r; bk_s := bp_words p salt 4; bk_o := n;
       bk_b := {| bb_a := ((0, 0), iv n); bb_buf := buf; bb_i := 0 |} |}.
  (** blake256.c:187-211 *)
  Definition bk_input (s : blake) (l : list N) : res blake :=
    let* b := bb_input bs (bk_step (bk_r s) (bk_s s)) (bk_b s) l in
    Ok {| bk_r := bk_r s; bk_s := bk_s s; bk_o := bk_o s; bk_b := b |}.
  (** blake256.c:213-245.  lenat = 56 (112) *)
  Definition bk_finish (s : blake) : res blake :=
    let lenat := (14 * k)%nat in
    let proc := bk_process (bk_r s) (bk_s s) in
    let b := bk_b s in
    let* len := bk_count p (N.of_nat (8 * bb_i b)) (fst (bb_a b)) in
    let b := {| bb_a := (len, snd (bb_a b)); bb_buf := bb_buf b; bb_i := bb_i b |} in
    let* b := bb_put bs 0x80 b in
    let* b := if (lenat <? bb_i b)%nat then let* b := bb_zeros bs bs b in bb_flush bs proc b else Ok b in
    let* b := bb_zeros bs lenat b in
    let* b := if (thr <? bk_o s)%nat then
                let* x := get (bb_buf b) (lenat - 1) in
                let* m := bput bs (bb_buf b) (lenat - 1) (N.lxor x 1) in
                Ok {| bb_a := bb_a b; bb_buf := m; bb_i := bb_i b |}
              else Ok b in
    let* b := bb_store bs lenat (bp_store p (snd (fst (bb_a b))) ++ bp_store p (fst (fst (bb_a b)))) b in
    let b := if Nat.eqb (bb_i b) 0 then {| bb_a := ((0, 0), snd (bb_a b)); bb_buf := bb_buf b; bb_i := bb_i b |} else b in
    let* b := bb_flush bs proc b in
    Ok {| bk_r := bk_r s; bk_s := bk_s s; bk_o := 0; bk_b := b |}.
  (** blake256.c:247-254 *)
  Definition bk_output (s : blake) (len : nat) : res (blake * list N) :=
    let* s := if Nat.eqb (bk_o s) 0 then Ok s else bk_finish s in
    let b := bk_b s in
    assert_ (bb_i b + len <=? 8 * k)%nat
      (Ok ({| bk_r := bk_r s; bk_s := bk_s s; bk_o := bk_o s; bk_b := {| bb_a := bb_a b; bb_buf := bb_buf b; bb_i := bb_i b + len |} |},
           bp_array p (snd (bb_a b)) (bb_i b) len)).
  (** blake256.c:256-314; the one-call function has its object on the stack *)
  Definition bk_hash : hash := {|
    hs_st := blake;
    hs_create r salt n := Ok (bk_start r salt n []);
    hs_recreate s r salt n := Ok (bk_start r salt n (bb_buf (bk_b s)));
    hs_input := bk_input;
    hs_output := bk_output;
    hs_all r salt l n := let* s := bk_input (bk_start r salt n []) l in let* q := bk_output s n in Ok (snd q);
    hs_maxout := 8 * k; hs_blocksize := bs; hs_maxsalt := N.of_nat (4 * k) |}.
End Blake.
(** blake256.c:79-102 *)
Definition blake256_iv (n : nat) : list N :=
  if (28 <? n)%nat then blake2s_IV
  else [0xC1059ED8; 0x367CD507; 0x3070DD17; 0xF70E5939; 0xFFC00B31; 0x68581511; 0x64F98FA7; 0xBEFA4FA4].
(** blake512.c:84-107 *)
Definition blake512_iv (n : nat) : list N :=
  if (48 <? n)%nat then blake2b_IV
  else [0xCBBB9D5DC1059ED8; 0x629A292A367CD507; 0x9159015A3070DD17; 0x152FECD8F70E5939;
        0x67332667FFC00B31; 0x8EB44A8768581511; 0xDB0C2E0D64F98FA7; 0x47B5481DBEFA4FA4].
(** blake256.c:303-316, blake512.c:308-321 *)
Definition hash_blake256 : hash := bk_hash blake256p blake256_K blake256_iv 28.
Definition hash_blake512 : hash := bk_hash blake512p blake512_K blake512_iv 48.

(** ** BLAKE2 *)
(** blake2s.c:30-39: [b2_f] is f <> 0 *)
Record blake2 := { b2_r : N; b2_f : bool; b2_b : bb bk_acc }.
Section Blake2.
  Variables (p : blakep) (IV : list N).
  Let k := bp_k p.
  Let bs := (16 * bp_k p)%nat.
  Let at_ (l : list N) (i : nat) := nth i l 0.
  (** blake2s.c:105-167; f is 0 or all ones *)
  Definition b2_process (r : N) (f : bool) (a : bk_acc) (data : list N) : res bk_acc :=
    let '((l0, l1), h) := a in
    let m := bk_block p data in
    let v := h ++ [at_ IV 0%nat; at_ IV 1%nat; at_ IV 2%nat; at_ IV 3%nat;
                   N.lxor (at_ IV 4%nat) l0; N.lxor (at_ IV 5%nat) l1;
                   N.lxor (at_ IV 6%nat) (if f then N.ones (bp_w p) else 0); at_ IV 7%nat] in
    let v := bk_rounds p (fun s0 s1 => (at_ m s0, at_ m s1)) r v in
    Ok ((l0, l1), map (fun i => N.lxor (at_ h i) (N.lxor (at_ v i) (at_ v (i + 8)%nat))) (seq 0 8)).
  (** blake2s.c:182-191 *)
  Definition b2_step (r : N) (f : bool) (a : bk_acc) (data : list N) : res bk_acc :=
    let* len := bk_count p (N.of_nat bs) (fst a) in b2_process r f (len, snd a) data.
  (** blake2s.c:61-90; out_len is an unsigned int *)
  Definition b2_start (r : N) (salt : list N) (n : nat) (buf : list N) : blake2 :=
    let sw := bp_words p salt 2 in
    {| b2_r := if r =? 0 then bp_r p else r; b2_f := false;
       b2_b := {| bb_a := ((0, 0),
         [N.lxor (N.lxor (at_ IV 0%nat) 0x01010000) (N.of_nat n); at_ IV 1%nat; at_ IV 2%nat; at_ IV 3%nat;
          N.lxor (at_ IV 4%nat) (at_ sw 0%nat); N.lxor (at_ IV 5%nat) (at_ sw 1%nat); at_ IV 6%nat; at_ IV 7%nat]);
         bb_buf := buf; bb_i := 0 |} |}.
  (** blake2s.c:169-193 *)
  Definition b2_input (s : blake2) (l : list N) : res blake2 :=
    let* b := bb_input bs (b2_step (b2_r s) (b2_f s)) (b2_b s) l in Ok {| b2_r := b2_r s; b2_f := b2_f s; b2_b := b |}.
  (** blake2s.c:195-211 *)
  Definition b2_finish (s : blake2) : res blake2 :=
    let b := b2_b s in
    let* len := bk_count p (N.of_nat (bb_i b)) (fst (bb_a b)) in
    let* b := bb_zeros bs bs {| bb_a := (len, snd (bb_a b)); bb_buf := bb_buf b; bb_i := bb_i b |} in
    let* b := bb_flush bs (b2_process (b2_r s) true) b in
    Ok {| b2_r := b2_r s; b2_f := true; b2_b := b |}.
  (** blake2s.c:213-220 *)
  Definition b2_output (s : blake2) (len : nat) : res (blake2 * list N) :=
    let* s := if b2_f s then Ok s else b2_finish s in
    let b := b2_b s in
    assert_ (bb_i b + len <=? 8 * k)%nat
      (Ok ({| b2_r := b2_r s; b2_f := b2_f s; b2_b := {| bb_a := bb_a b; bb_buf := bb_buf b; bb_i := bb_i b + len |} |},
           bp_array p (snd (bb_a b)) (bb_i b) len)).
  (** blake2s.c:222-280 *)
  Definition b2_hash : hash := {|
    hs_st := blake2;
    hs_create r salt n := Ok (b2_start r salt n []);
    hs_recreate s r salt n := Ok (b2_start r salt n (bb_buf (b2_b s)));
    hs_input := b2_input;
    hs_output := b2_output;
    hs_all r salt l n := let* s := b2_input (b2_start r salt n []) l in let* q := b2_output s n in Ok (snd q);
    hs_maxout := 8 * k; hs_blocksize := bs; hs_maxsalt := N.of_nat (2 * k) |}.
End Blake2.
(** blake2s.c:269-282, blake2b.c:271-284 *)
Definition hash_blake2s : hash := b2_hash blake2sp blake2s_IV.
Definition hash_blake2b : hash := b2_hash blake2bp blake2b_IV.
