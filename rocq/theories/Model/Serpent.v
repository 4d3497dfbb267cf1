(** lib/block/serpent.c *)
From Coq Require Import NArith Arith List Bool.
From Verif Require Import Lib.Word Lib.Res Model.LoadStore Model.BlockApi Model.Table Lib.Bytes Lib.Bij Lib.Bits.
Import ListNotations.
Local Open Scope N_scope.

(** serpent.c:32-37 *)
Record serpent := { serp_r : N; serp_k : list N }.

(** The S-boxes as three address code; A B C D are registers 0-3, T is register 4. *)
(** serpent.c:42-61 S0 *)
Definition serp_s0 : list instr :=
  [I BCopy 4 3 0; I BOr 3 3 0; I BXor 0 0 4; I BXor 4 4 2; I BNot 4 4 0; I BXor 3 3 1; I BAnd 1 1 0;
   I BXor 1 1 4; I BXor 2 2 0; I BXor 0 0 3; I BOr 4 4 0; I BXor 0 0 2; I BAnd 2 2 1; I BXor 3 3 2;
   I BNot 1 1 0; I BXor 2 2 4; I BXor 1 1 2]%nat.
(** serpent.c:64-84 S1 *)
Definition serp_s1 : list instr :=
  [I BCopy 4 1 0; I BXor 1 1 0; I BXor 0 0 3; I BNot 3 3 0; I BAnd 4 4 1; I BOr 0 0 1; I BXor 3 3 2;
   I BXor 0 0 3; I BXor 1 1 3; I BXor 3 3 4; I BOr 1 1 4; I BXor 4 4 2; I BAnd 2 2 0; I BXor 2 2 1;
   I BOr 1 1 0; I BNot 0 0 0; I BXor 0 0 2; I BXor 4 4 1]%nat.
(** serpent.c:87-106 S2 *)
Definition serp_s2 : list instr :=
  [I BNot 3 3 0; I BXor 1 1 0; I BCopy 4 0 0; I BAnd 0 0 2; I BXor 0 0 3; I BOr 3 3 4; I BXor 2 2 1;
   I BXor 3 3 1; I BAnd 1 1 0; I BXor 0 0 2; I BAnd 2 2 3; I BOr 3 3 1; I BNot 0 0 0; I BXor 3 3 0;
   I BXor 4 4 0; I BXor 0 0 2; I BOr 1 1 2]%nat.
(** serpent.c:109-130 S3 *)
Definition serp_s3 : list instr :=
  [I BCopy 4 1 0; I BXor 1 1 3; I BOr 3 3 0; I BAnd 4 4 0; I BXor 0 0 2; I BXor 2 2 1; I BAnd 1 1 3;
   I BXor 2 2 3; I BOr 0 0 4; I BXor 4 4 3; I BXor 1 1 0; I BAnd 0 0 3; I BAnd 3 3 4; I BXor 3 3 2;
   I BOr 4 4 1; I BAnd 2 2 1; I BXor 4 4 3; I BXor 0 0 3; I BXor 3 3 2]%nat.
(** serpent.c:133-152 S4 *)
Definition serp_s4 : list instr :=
  [I BCopy 4 3 0; I BAnd 3 3 0; I BXor 0 0 4; I BXor 3 3 2; I BOr 2 2 4; I BXor 0 0 1; I BXor 4 4 3;
   I BOr 2 2 0; I BXor 2 2 1; I BAnd 1 1 0; I BXor 1 1 4; I BAnd 4 4 2; I BXor 2 2 3; I BXor 4 4 0;
   I BOr 3 3 1; I BNot 1 1 0; I BXor 3 3 0]%nat.
(** serpent.c:155-174 S5 *)
Definition serp_s5 : list instr :=
  [I BCopy 4 1 0; I BOr 1 1 0; I BXor 2 2 1; I BNot 3 3 0; I BXor 4 4 0; I BXor 0 0 2; I BAnd 1 1 4;
   I BOr 4 4 3; I BXor 4 4 0; I BAnd 0 0 3; I BXor 1 1 3; I BXor 3 3 2; I BXor 0 0 1; I BAnd 2 2 4;
   I BXor 1 1 2; I BAnd 2 2 0; I BXor 3 3 2]%nat.
(** serpent.c:177-196 S6 *)
Definition serp_s6 : list instr :=
  [I BCopy 4 1 0; I BXor 3 3 0; I BXor 1 1 2; I BXor 2 2 0; I BAnd 0 0 3; I BOr 1 1 3; I BNot 4 4 0;
   I BXor 0 0 1; I BXor 1 1 2; I BXor 3 3 4; I BXor 4 4 0; I BAnd 2 2 0; I BXor 4 4 1; I BXor 2 2 3;
   I BAnd 3 3 1; I BXor 3 3 0; I BXor 1 1 2]%nat.
(** serpent.c:199-220 S7 *)
Definition serp_s7 : list instr :=
  [I BNot 1 1 0; I BCopy 4 1 0; I BNot 0 0 0; I BAnd 1 1 2; I BXor 1 1 3; I BOr 3 3 4; I BXor 4 4 2;
   I BXor 2 2 3; I BXor 3 3 0; I BOr 0 0 1; I BAnd 2 2 0; I BXor 0 0 4; I BXor 4 4 3; I BAnd 3 3 0;
   I BXor 4 4 1; I BXor 2 2 4; I BXor 3 3 1; I BOr 4 4 0; I BXor 4 4 1]%nat.
(** serpent.c:226-245 IS0 *)
Definition serp_is0 : list instr :=
  [I BCopy 4 3 0; I BXor 1 1 0; I BOr 3 3 1; I BXor 4 4 1; I BNot 0 0 0; I BXor 2 2 3; I BXor 3 3 0;
   I BAnd 0 0 1; I BXor 0 0 2; I BAnd 2 2 3; I BXor 3 3 4; I BXor 2 2 3; I BXor 1 1 3; I BAnd 3 3 0;
   I BXor 1 1 0; I BXor 0 0 2; I BXor 4 4 3]%nat.
(** serpent.c:248-267 IS1 *)
Definition serp_is1 : list instr :=
  [I BXor 1 1 3; I BCopy 4 0 0; I BXor 0 0 2; I BNot 2 2 0; I BOr 4 4 1; I BXor 4 4 3; I BAnd 3 3 1;
   I BXor 1 1 2; I BAnd 2 2 4; I BXor 4 4 1; I BOr 1 1 3; I BXor 3 3 0; I BXor 2 2 0; I BOr 0 0 4;
   I BXor 2 2 4; I BXor 1 1 0; I BXor 4 4 1]%nat.
(** serpent.c:270-289 IS2 *)
Definition serp_is2 : list instr :=
  [I BXor 2 2 1; I BCopy 4 3 0; I BNot 3 3 0; I BOr 3 3 2; I BXor 2 2 4; I BXor 4 4 0; I BXor 3 3 1;
   I BOr 1 1 2; I BXor 2 2 0; I BXor 1 1 4; I BOr 4 4 3; I BXor 2 2 3; I BXor 4 4 2; I BAnd 2 2 1;
   I BXor 2 2 3; I BXor 3 3 4; I BXor 4 4 0]%nat.
(** serpent.c:292-312 IS3 *)
Definition serp_is3 : list instr :=
  [I BXor 2 2 1; I BCopy 4 1 0; I BAnd 1 1 2; I BXor 1 1 0; I BOr 0 0 4; I BXor 4 4 3; I BXor 0 0 3;
   I BOr 3 3 1; I BXor 1 1 2; I BXor 1 1 3; I BXor 0 0 2; I BXor 2 2 3; I BAnd 3 3 1; I BXor 1 1 0;
   I BAnd 0 0 2; I BXor 4 4 3; I BXor 3 3 0; I BXor 0 0 1]%nat.
(** serpent.c:315-335 IS4 *)
Definition serp_is4 : list instr :=
  [I BXor 2 2 3; I BCopy 4 0 0; I BAnd 0 0 1; I BXor 0 0 2; I BOr 2 2 3; I BNot 4 4 0; I BXor 1 1 0;
   I BXor 0 0 2; I BAnd 2 2 4; I BXor 2 2 0; I BOr 0 0 4; I BXor 0 0 3; I BAnd 3 3 2; I BXor 4 4 3;
   I BXor 3 3 1; I BAnd 1 1 0; I BXor 4 4 1; I BXor 0 0 3]%nat.
(** serpent.c:338-360 IS5 *)
Definition serp_is5 : list instr :=
  [I BCopy 4 1 0; I BOr 1 1 2; I BXor 2 2 4; I BXor 1 1 3; I BAnd 3 3 4; I BXor 2 2 3; I BOr 3 3 0;
   I BNot 0 0 0; I BXor 3 3 2; I BOr 2 2 0; I BXor 4 4 1; I BXor 2 2 4; I BAnd 4 4 0; I BXor 0 0 1;
   I BXor 1 1 3; I BAnd 0 0 2; I BXor 2 2 3; I BXor 0 0 2; I BXor 2 2 4; I BXor 4 4 3]%nat.
(** serpent.c:363-382 IS6 *)
Definition serp_is6 : list instr :=
  [I BXor 0 0 2; I BCopy 4 0 0; I BAnd 0 0 3; I BXor 2 2 3; I BXor 0 0 2; I BXor 3 3 1; I BOr 2 2 4;
   I BXor 2 2 3; I BAnd 3 3 0; I BNot 0 0 0; I BXor 3 3 1; I BAnd 1 1 2; I BXor 4 4 0; I BXor 3 3 4;
   I BXor 4 4 2; I BXor 0 0 1; I BXor 2 2 0]%nat.
(** serpent.c:385-406 IS7 *)
Definition serp_is7 : list instr :=
  [I BCopy 4 3 0; I BAnd 3 3 0; I BXor 0 0 2; I BOr 2 2 4; I BXor 4 4 1; I BNot 0 0 0; I BOr 1 1 3;
   I BXor 4 4 0; I BAnd 0 0 2; I BXor 0 0 1; I BAnd 1 1 2; I BXor 3 3 2; I BXor 4 4 3; I BAnd 2 2 3;
   I BOr 3 3 0; I BXor 1 1 4; I BXor 3 3 4; I BAnd 4 4 0; I BXor 4 4 2]%nat.

(** serpent.c:476-507: S-box [b] of a pass with the registers that hold its results, in
    the order in which the next LT (for S7 the assignments in line 507) takes them *)
Definition serp_s (b : nat) : list N -> list N :=
  match b with
  | 0 => slices 32 1 serp_s0 [2; 1; 3; 0]%nat
  | 1 => slices 32 1 serp_s1 [4; 2; 3; 0]%nat
  | 2 => slices 32 1 serp_s2 [4; 1; 0; 3]%nat
  | 3 => slices 32 1 serp_s3 [3; 4; 1; 0]%nat
  | 4 => slices 32 1 serp_s4 [1; 2; 3; 4]%nat
  | 5 => slices 32 1 serp_s5 [4; 0; 1; 3]%nat
  | 6 => slices 32 1 serp_s6 [2; 4; 1; 3]%nat
  | _ => slices 32 1 serp_s7 [4; 2; 3; 0]%nat
  end%nat.
(** serpent.c:540-571: the inverse S-box [b] with the registers of its results, in the
    order in which the K behind it takes them (for IS0 also line 571) *)
Definition serp_is (b : nat) : list N -> list N :=
  match b with
  | 0 => slices 32 1 serp_is0 [2; 4; 1; 0]%nat
  | 1 => slices 32 1 serp_is1 [4; 1; 2; 3]%nat
  | 2 => slices 32 1 serp_is2 [1; 4; 3; 2]%nat
  | 3 => slices 32 1 serp_is3 [2; 0; 4; 3]%nat
  | 4 => slices 32 1 serp_is4 [0; 2; 4; 3]%nat
  | 5 => slices 32 1 serp_is5 [1; 4; 0; 2]%nat
  | 6 => slices 32 1 serp_is6 [2; 4; 3; 0]%nat
  | _ => slices 32 1 serp_is7 [1; 3; 0; 4]%nat
  end%nat.
(** serpent.c:630-660: S-box number [b] of a pass of the key schedule, with the order of STOR_K *)
Definition serp_ks (b : nat) : list N -> list N :=
  match b with
  | 0 => slices 32 1 serp_s3 [3; 4; 1; 0]%nat
  | 1 => slices 32 1 serp_s2 [4; 1; 0; 3]%nat
  | 2 => slices 32 1 serp_s1 [4; 2; 3; 0]%nat
  | 3 => slices 32 1 serp_s0 [2; 1; 3; 0]%nat
  | 4 => slices 32 1 serp_s7 [4; 2; 3; 0]%nat
  | 5 => slices 32 1 serp_s6 [2; 4; 1; 3]%nat
  | 6 => slices 32 1 serp_s5 [4; 0; 1; 3]%nat
  | _ => slices 32 1 serp_s4 [1; 2; 3; 4]%nat
  end%nat.

(** serpent.c:408-420 *)
Definition serp_lt (x : list N) : list N :=
  let a := rol 32 (nth 0 x 0) 13 in
  let c := rol 32 (nth 2 x 0) 3 in
  let d := N.lxor (nth 3 x 0) (N.lxor c (wshl 32 a 3)) in
  let b := N.lxor (nth 1 x 0) (N.lxor a c) in
  let d := rol 32 d 7 in
  let b := rol 32 b 1 in
  let a := N.lxor a (N.lxor b d) in
  let c := N.lxor c (N.lxor d (wshl 32 b 7)) in
  [rol 32 a 5; b; rol 32 c 22; d].
(** serpent.c:422-434 *)
Definition serp_ilt (x : list N) : list N :=
  let b := nth 1 x 0 in
  let d := nth 3 x 0 in
  let c := ror 32 (nth 2 x 0) 22 in
  let a := ror 32 (nth 0 x 0) 5 in
  let c := N.lxor c (N.lxor d (wshl 32 b 7)) in
  let a := N.lxor a (N.lxor b d) in
  let d := ror 32 d 7 in
  let b := ror 32 b 1 in
  let d := N.lxor d (N.lxor c (wshl 32 a 3)) in
  let b := N.lxor b (N.lxor a c) in
  [ror 32 a 13; b; ror 32 c 3; d].

(** serpent.c:436-442: K pointing at word [i] *)
Definition serp_add (ks : list N) (i : nat) (x : list N) : res (list N) :=
  let* k0 := get ks i in
  let* k1 := get ks (i + 1) in
  let* k2 := get ks (i + 2) in
  let* k3 := get ks (i + 3) in
  Ok [N.lxor (nth 0 x 0) k0; N.lxor (nth 1 x 0) k1; N.lxor (nth 2 x 0) k2; N.lxor (nth 3 x 0) k3].

(** serpent.c:476-507: eight rounds, from word [32 g] of the schedule *)
Definition serp_pass (ks : list N) (g : nat) (x : list N) : res (list N) :=
  mfor 8 0 (fun b x =>
    let* x := serp_add ks (32 * g + 4 * b) x in
    let x := serp_s b x in
    Ok (if Nat.ltb (S b) 8 then serp_lt x else x)) x.
(** serpent.c:460-520: passes until i >= rounds << 2 *)
Definition serp_passes (r : N) : nat := N.to_nat ((r + 7) / 8).
Definition serp_enc_words (s : serpent) (x : list N) : res (list N) :=
  let n := serp_passes (serp_r s) in
  let* x := mfor n 0 (fun g x =>
    let* x := serp_pass (serp_k s) g x in
    Ok (if Nat.ltb (S g) n then serp_lt x else x)) x in
  serp_add (serp_k s) (32 * n) x.
Definition serpent_encrypt (s : serpent) (pt : list N) : res (list N) :=
  let* y := serp_enc_words s (loads load32l 4 4 pt) in Ok (stores store32l y).

(** serpent.c:540-571: eight rounds backwards, down to word [32 g] *)
Definition serp_unpass (ks : list N) (g : nat) (x : list N) : res (list N) :=
  mford 8 (fun b x =>
    let* x := serp_add ks (32 * g + 4 * b) (serp_is b x) in
    Ok (if Nat.ltb 0 b then serp_ilt x else x)) x.
(** serpent.c:522-582, for a round count that is a multiple of eight; [serpent_create]
    has failed for the others *)
Definition serp_dec_words (s : serpent) (x : list N) : res (list N) :=
  let n := serp_passes (serp_r s) in
  let* x := serp_add (serp_k s) (4 * N.to_nat (serp_r s)) x in
  mford n (fun g x =>
    let* x := serp_unpass (serp_k s) g x in
    Ok (if Nat.ltb 0 g then serp_ilt x else x)) x.
Definition serpent_decrypt (s : serpent) (ct : list N) : res (list N) :=
  let* y := serp_dec_words s (loads load32l 4 4 ct) in Ok (stores store32l y).

(** serpent.c:606-613 and 618-625: the next word from the eight before it *)
Definition serp_next (w : list N) (c : N) : N :=
  let g j := nth j w 0 in
  rol 32 (N.lxor (N.lxor (N.lxor (N.lxor (N.lxor (g 0%nat) (g 3%nat)) (g 5%nat)) (g 7%nat)) 0x9E3779B9) c) 11.
(** [n] further words with the counter starting at [c] *)
Fixpoint serp_words (n : nat) (c : N) (w : list N) : list N :=
  match n with
  | O => []
  | S n' => let v := serp_next w c in v :: serp_words n' (c + 1) (tl w ++ [v])
  end.

(** serpent.c:598-602 *)
Definition serp_key (key : list N) : list N :=
  let k := key32l key 8 in
  if Nat.ltb (length key) 32
  then upd k (length key / 4) (N.lor (nth (length key / 4) k 0) (N.shiftl 1 (N.of_nat (8 * (length key mod 4)))))
  else k.

(** serpent.c:604-626: words 0-7 are the results of the first loop, the second loop
    fills the rest *)
Definition serp_prekeys (r : N) (key : list N) : list N :=
  let w := serp_words 8 0 (serp_key key) in
  w ++ serp_words (4 * N.to_nat (r + 1) - 8) 8 w.

(** serpent.c:584-666; passes of eight boxes while i < rounds << 2, then one more S3 *)
Definition serp_setup (r : N) (key : list N) : serpent :=
  let w := serp_prekeys r key in
  let at_ i := serp_ks (i mod 8) (slice (4 * i) 4 w) in
  {| serp_r := r; serp_k := flat_map at_ (seq 0 (8 * serp_passes r + 1)) |}.

(** serpent.c:721-732 *)
Definition serpent_maxkey : nat := 32.
(** serpent.c:678 and 706 *)
Definition serpent_rounds (r : N) : N := if r =? 0 then 32 else r.
(** serpent.c:668-690; words are stored up to 31 (598) and by whole passes of eight
    rounds (628-665) *)
Definition serpent_create (r : N) (key : list N) : res serpent :=
  assert_ (key_len_ok serpent_maxkey key)
    (let r := serpent_rounds r in
     fits (N.max 32 (4 * (8 * ((r + 7) / 8) + 1))) (wshl 32 (r + 1) 4 / 4) (Ok (serp_setup r key))).
(** serpent.c:698-719 *)
Definition serpent_recreate (s : serpent) (r : N) (key : list N) : res serpent :=
  assert_ (key_len_ok serpent_maxkey key)
    (let r := serpent_rounds r in if r =? serp_r s then Ok (serp_setup r key) else Err UseAfterFree).
