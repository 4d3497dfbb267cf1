(** lib/block/crax_s.c, trax_m.c, trax_l.c (the ARX-box ciphers) *)
From Coq Require Import NArith Arith List Bool.
From Verif Require Import Lib.Word Lib.Res Model.LoadStore Model.BlockApi Lib.Bytes.
Import ListNotations.
Local Open Scope N_scope.

(** One of the four groups of three statements of ALZETTE (crax_s.c:34-48, the same
    text in trax_m.c:36-50 and trax_l.c:36-50): X += ROR(Y, a); Y ^= ROR(X, b); X ^= C.
    Group 3 has no rotation in its first statement, [a = None]. *)
Definition alz_ror (y : N) (a : option N) : N := match a with None => y | Some n => ror 32 y n end.
Definition alz_grp (a : option N) (b c : N) (p : N * N) : N * N :=
  let x := wadd 32 (fst p) (alz_ror (snd p) a) in
  let y := N.lxor (snd p) (ror 32 x b) in
  (N.lxor x c, y).
(** X ^= C; Y ^= ROR(X, b); X -= ROR(Y, a) *)
Definition alz_ungrp (a : option N) (b c : N) (p : N * N) : N * N :=
  let x := N.lxor (fst p) c in
  let y := N.lxor (snd p) (ror 32 x b) in
  (wsub 32 x (alz_ror y a), y).

(** crax_s.c:34-48 *)
Definition alzette (c : N) (p : N * N) : N * N :=
  let p := alz_grp (Some 31) 24 c p in
  let p := alz_grp (Some 17) 17 c p in
  let p := alz_grp None 31 c p in
  alz_grp (Some 24) 16 c p.

(** crax_s.c:50-64 *)
Definition alzette_inv (c : N) (p : N * N) : N * N :=
  let p := alz_ungrp (Some 24) 16 c p in
  let p := alz_ungrp None 31 c p in
  let p := alz_ungrp (Some 17) 17 c p in
  alz_ungrp (Some 31) 24 c p.

(** ** crax_s.c *)

(** crax_s.c:27-32 *)
Record crax_s := { crax_steps : N; crax_k : list N }.

(** crax_s.c:80-83 *)
Definition crax_rcon : list N := [0xB7E15162; 0xBF715880; 0x38B4DA56; 0x324E7738; 0xBB1185EB].

(** crax_s.c:66-78 *)
Definition crax_key (k : list N) (step : nat) (p : N * N) : N * N :=
  if Nat.odd step then (N.lxor (fst p) (nth 2 k 0), N.lxor (snd p) (nth 3 k 0))
  else (N.lxor (fst p) (nth 0 k 0), N.lxor (snd p) (nth 1 k 0)).

(** crax_s.c:101-107 *)
Definition crax_enc_step (k : list N) (i : nat) (p : N * N) : N * N :=
  let c := nth (Nat.modulo i 5) crax_rcon 0 in
  alzette c (crax_key k i (N.lxor (fst p) (N.of_nat i), snd p)).

(** crax_s.c:122-128 *)
Definition crax_dec_step (k : list N) (i : nat) (p : N * N) : N * N :=
  let c := nth (Nat.modulo i 5) crax_rcon 0 in
  let p := crax_key k i (alzette_inv c p) in
  (N.lxor (fst p) (N.of_nat i), snd p).

(** crax_s.c:96-113 *)
Definition crax_encrypt (s : crax_s) (pt : list N) : res (list N) :=
  let n := N.to_nat (crax_steps s) in
  Ok (st2 (st := store32l) (crax_key (crax_k s) n
     (pfor n 0 (crax_enc_step (crax_k s)) (ld2 (k := 4) (ld := load32l) pt)))).

(** crax_s.c:115-132 *)
Definition crax_decrypt (s : crax_s) (ct : list N) : res (list N) :=
  let n := N.to_nat (crax_steps s) in
  Ok (st2 (st := store32l)
     (pford n (crax_dec_step (crax_k s)) (crax_key (crax_k s) n (ld2 (k := 4) (ld := load32l) ct)))).

Definition crax_maxkey : nat := 16.
(** crax_s.c:85-94, 142, 168 *)
Definition crax_setup (r : N) (key : list N) : crax_s :=
  {| crax_steps := if r =? 0 then 10 else r; crax_k := key32l key 4 |}.
Definition crax_create (r : N) (key : list N) : res crax_s :=
  assert_ (key_len_ok crax_maxkey key) (Ok (crax_setup r key)).
(** crax_s.c:160-175 *)
Definition crax_recreate (s : crax_s) (r : N) (key : list N) : res crax_s :=
  assert_ (key_len_ok crax_maxkey key) (Ok (crax_setup r key)).

(** ** trax_m.c *)

Record trax := { trax_steps : N; trax_k : list N; trax_tweak : list N }.

(** trax_m.c:68-72, trax_l.c:70-74 *)
Definition trax_rcon : list N :=
  [0xB7E15162; 0xBF715880; 0x38B4DA56; 0x324E7738; 0xBB1185EB; 0x4F7C7B57; 0xCFBFA1C8; 0xC2B3293D].
Definition trax_rc (i : nat) : N := nth (Nat.modulo i 8) trax_rcon 0.

(** trax_m.c:89-92: the four words after [k] *)
Definition trax_m_next (i : nat) (k : list N) : list N :=
  let g j := nth j k 0 in
  [g 1%nat; N.lxor (N.lxor (g 2%nat) (g 3%nat)) (N.of_nat i); g 3%nat;
   wadd 32 (wadd 32 (g 0%nat) (g 1%nat)) (trax_rc i)].

(** trax_l.c:91-98: the eight words after [k] *)
Definition trax_l_next (i : nat) (k : list N) : list N :=
  let g j := nth j k 0 in
  [g 1%nat; N.lxor (N.lxor (g 2%nat) (g 3%nat)) (N.of_nat i); g 3%nat;
   wadd 32 (wadd 32 (g 4%nat) (g 5%nat)) (trax_rc (2 * i + 1)); g 5%nat;
   N.lxor (N.lxor (g 6%nat) (g 7%nat)) (wshl 32 (N.of_nat i) 16); g 7%nat;
   wadd 32 (wadd 32 (g 0%nat) (g 1%nat)) (trax_rc (2 * i))].

(** the loop around them, trax_m.c:87-93, trax_l.c:89-99 *)
Fixpoint trax_sched (next : nat -> list N -> list N) (n i : nat) (k : list N) : list N :=
  match n with
  | O => k
  | S n' => k ++ trax_sched next n' (S i) (next i k)
  end.

(** xor the first words of [x] with [k]; trax_m.c:107-108, 111-114 etc. *)
Fixpoint xor_front (x k : list N) : list N :=
  match x, k with
  | a :: x', b :: k' => N.lxor a b :: xor_front x' k'
  | _, _ => x
  end.

(** [n] consecutive key words from index [o] *)
Fixpoint gets (ks : list N) (o n : nat) : res (list N) :=
  match n with
  | O => Ok []
  | S n' => let* a := get ks o in let* t := gets ks (S o) n' in Ok (a :: t)
  end.

Definition trax_tw (s : trax) (i : nat) (x : list N) : list N :=
  if Nat.odd i then xor_front x (trax_tweak s) else x.

(** trax_m.c:117-125 on [x0; y0; x1; y1] *)
Definition trax_m_mix (i : nat) (x : list N) : list N :=
  match x with
  | [x0; y0; x1; y1] =>
      let '(x0, y0) := alzette (trax_rc (2 * i)) (x0, y0) in
      let '(x1, y1) := alzette (trax_rc (2 * i + 1)) (x1, y1) in
      [N.lxor x0 x1; N.lxor y0 y1; x0; y0]
  | _ => x
  end.

(** trax_m.c:153-162 *)
Definition trax_m_unmix (i : nat) (x : list N) : list N :=
  match x with
  | [x0; y0; x1; y1] =>
      let xt := N.lxor x0 x1 in
      let yt := N.lxor y0 y1 in
      let '(x0, y0) := alzette_inv (trax_rc (2 * i)) (x1, y1) in
      let '(x1, y1) := alzette_inv (trax_rc (2 * i + 1)) (xt, yt) in
      [x0; y0; x1; y1]
  | _ => x
  end.

(** trax_l.c:68 *)
Definition trax_ell (x : N) : N := rol 32 (N.lxor x (wshl 32 x 16)) 16.

(** trax_l.c:133-154 on [x0; y0; x1; y1; x2; y2; x3; y3] *)
Definition trax_l_mix (i : nat) (x : list N) : list N :=
  match x with
  | [x0; y0; x1; y1; x2; y2; x3; y3] =>
      let '(x0, y0) := alzette (trax_rc (4 * i)) (x0, y0) in
      let '(x1, y1) := alzette (trax_rc (4 * i + 1)) (x1, y1) in
      let '(x2, y2) := alzette (trax_rc (4 * i + 2)) (x2, y2) in
      let '(x3, y3) := alzette (trax_rc (4 * i + 3)) (x3, y3) in
      let xt := trax_ell (N.lxor x2 x3) in
      let yt := trax_ell (N.lxor y2 y3) in
      let y0 := N.lxor y0 xt in let y1 := N.lxor y1 xt in
      let x0 := N.lxor x0 yt in let x1 := N.lxor x1 yt in
      [x3; y3; x2; y2; x0; y0; x1; y1]
  | _ => x
  end.

(** trax_l.c:198-220 *)
Definition trax_l_unmix (i : nat) (x : list N) : list N :=
  match x with
  | [a0; b0; a1; b1; a2; b2; a3; b3] =>
      let x0 := a2 in let x2 := a1 in let x1 := a3 in let x3 := a0 in
      let y0 := b2 in let y2 := b1 in let y1 := b3 in let y3 := b0 in
      let xt := trax_ell (N.lxor x2 x3) in
      let yt := trax_ell (N.lxor y2 y3) in
      let y0 := N.lxor y0 xt in let y1 := N.lxor y1 xt in
      let x0 := N.lxor x0 yt in let x1 := N.lxor x1 yt in
      let '(x0, y0) := alzette_inv (trax_rc (4 * i)) (x0, y0) in
      let '(x1, y1) := alzette_inv (trax_rc (4 * i + 1)) (x1, y1) in
      let '(x2, y2) := alzette_inv (trax_rc (4 * i + 2)) (x2, y2) in
      let '(x3, y3) := alzette_inv (trax_rc (4 * i + 3)) (x3, y3) in
      [x0; y0; x1; y1; x2; y2; x3; y3]
  | _ => x
  end.

(** The two ciphers share the rest; [n] is the number of words of a block. *)
Record trax_par := {
  tr_n : nat;
  tr_next : nat -> list N -> list N;
  tr_mix : nat -> list N -> list N;
  tr_unmix : nat -> list N -> list N;
  tr_def : N;          (* trax_m.c:190, trax_l.c:258 *)
}.
Definition trax_m : trax_par := {| tr_n := 4; tr_next := trax_m_next; tr_mix := trax_m_mix; tr_unmix := trax_m_unmix; tr_def := 14 |}.
Definition trax_l : trax_par := {| tr_n := 8; tr_next := trax_l_next; tr_mix := trax_l_mix; tr_unmix := trax_l_unmix; tr_def := 17 |}.

Section Trax.
  Variable p : trax_par.
  Let n := tr_n p.

  (** trax_m.c:103-126, trax_l.c:113-155 *)
  Definition trax_enc_step (s : trax) (i : nat) (x : list N) : res (list N) :=
    let* k := gets (trax_k s) (n * i) n in
    Ok (tr_mix p i (xor_front (trax_tw s i x) k)).
  (** trax_m.c:151-174, trax_l.c:196-238 *)
  Definition trax_dec_step (s : trax) (i : nat) (x : list N) : res (list N) :=
    let* k := gets (trax_k s) (n * i) n in
    Ok (trax_tw s i (xor_front (tr_unmix p i x) k)).

  (** trax_m.c:96-137, trax_l.c:102-174 *)
  Definition trax_encrypt (s : trax) (pt : list N) : res (list N) :=
    let r := N.to_nat (trax_steps s) in
    let* x := mfor r 0 (trax_enc_step s) (loads load32l 4 n pt) in
    let* k := gets (trax_k s) (n * r) n in
    Ok (stores store32l (xor_front x k)).

  (** trax_m.c:139-180, trax_l.c:176-248 *)
  Definition trax_decrypt (s : trax) (ct : list N) : res (list N) :=
    let r := N.to_nat (trax_steps s) in
    let* k := gets (trax_k s) (n * r) n in
    let* x := mford r (trax_dec_step s) (xor_front (loads load32l 4 n ct) k) in
    Ok (stores store32l x).

  Definition trax_maxkey : nat := 4 * n.
  Definition trax_maxtweak : nat := 2 * n.

  Definition trax_setup (r : N) (key : list N) : trax :=
    {| trax_steps := r; trax_k := trax_sched (tr_next p) (N.to_nat r) 0 (key32l key n);
       trax_tweak := repeat 0 (Nat.div n 2) |}.

  Definition trax_r (r : N) : N := if r =? 0 then tr_def p else r.

  (** trax_m.c:182-202, trax_l.c:250-270: [n (r + 1)] words in [((r + 1) * 4 n) mod 2^32] bytes *)
  Definition trax_create (r : N) (key : list N) : res trax :=
    assert_ (key_len_ok trax_maxkey key)
      (let r := trax_r r in
       fits (r + 1) (mask 32 ((r + 1) * (4 * N.of_nat n)) / (4 * N.of_nat n)) (Ok (trax_setup r key))).

  (** trax_m.c:210-231, trax_l.c:278-299 *)
  Definition trax_recreate (s : trax) (r : N) (key : list N) : res trax :=
    assert_ (key_len_ok trax_maxkey key)
      (let r := trax_r r in
       if r =? trax_steps s then Ok (trax_setup r key) else Err UseAfterFree).

  (** trax_m.c:233-242, trax_l.c:301-310; the length is not checked in lib/block.c
      and the tweak array is the last field before the key words *)
  Definition trax_set_tweak (s : trax) (tweak : list N) : res trax :=
    if Nat.leb (length tweak) trax_maxtweak then
      Ok {| trax_steps := trax_steps s; trax_k := trax_k s; trax_tweak := key32l tweak (Nat.div n 2) |}
    else Err OobWrite.
End Trax.
