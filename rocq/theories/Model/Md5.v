(** lib/hash/md5.c. *)
From Coq Require Import NArith Arith List Bool.
From Verif Require Import Lib.Word Lib.Res Model.LoadStore Model.HashApi Model.Md.
Import ListNotations.
Local Open Scope N_scope.

(** md5.c:40-58 *)
Definition md5_k : list N :=
  [0xD76AA478; 0xE8C7B756; 0x242070DB; 0xC1BDCEEE;
   0xF57C0FAF; 0x4787C62A; 0xA8304613; 0xFD469501;
   0x698098D8; 0x8B44F7AF; 0xFFFF5BB1; 0x895CD7BE;
   0x6B901122; 0xFD987193; 0xA679438E; 0x49B40821;
   0xF61E2562; 0xC040B340; 0x265E5A51; 0xE9B6C7AA;
   0xD62F105D; 0x02441453; 0xD8A1E681; 0xE7D3FBC8;
   0x21E1CDE6; 0xC33707D6; 0xF4D50D87; 0x455A14ED;
   0xA9E3E905; 0xFCEFA3F8; 0x676F02D9; 0x8D2A4C8A;
   0xFFFA3942; 0x8771F681; 0x6D9D6122; 0xFDE5380C;
   0xA4BEEA44; 0x4BDECFA9; 0xF6BB4B60; 0xBEBFBC70;
   0x289B7EC6; 0xEAA127FA; 0xD4EF3085; 0x04881D05;
   0xD9D4D039; 0xE6DB99E5; 0x1FA27CF8; 0xC4AC5665;
   0xF4292244; 0x432AFF97; 0xAB9423A7; 0xFC93A039;
   0x655B59C3; 0x8F0CCC92; 0xFFEFF47D; 0x85845DD1;
   0x6FA87E4F; 0xFE2CE6E0; 0xA3014314; 0x4E0811A1;
   0xF7537E82; 0xBD3AF235; 0x2AD7D2BB; 0xEB86D391].
(** md5.c:60-66 *)
Definition md5_rot : list N :=
  [7; 12; 17; 22; 7; 12; 17; 22; 7; 12; 17; 22; 7; 12; 17; 22;
   5; 9; 14; 20; 5; 9; 14; 20; 5; 9; 14; 20; 5; 9; 14; 20;
   4; 11; 16; 23; 4; 11; 16; 23; 4; 11; 16; 23; 4; 11; 16; 23;
   6; 10; 15; 21; 6; 10; 15; 21; 6; 10; 15; 21; 6; 10; 15; 21].
(** md5.c:68-71 *)
Definition m5_f0 (b c d : N) : N := N.lxor d (N.land b (N.lxor c d)).
Definition m5_f1 (b c d : N) : N := N.lxor c (N.land d (N.lxor b c)).
Definition m5_f2 (b c d : N) : N := N.lxor (N.lxor b c) d.
Definition m5_f3 (b c d : N) : N := N.lxor c (N.lor b (wnot 32 d)).
(** md5.c:73-91: function and index of the message word in G0, G1, G2, G3 *)
Definition m5_g (g i : nat) : (N -> N -> N -> N) * nat :=
  match g with
  | O => (m5_f0, i)
  | 1%nat => (m5_f1, (i * 5 + 1) mod 16)%nat
  | 2%nat => (m5_f2, (i * 3 + 5) mod 16)%nat
  | _ => (m5_f3, (i * 7) mod 16)%nat
  end.
(** md5.c:73-76: G with register [j] in the place of A, the others following cyclically *)
Definition m5_round (i j : nat) (m x : list N) : res (list N) :=
  let at_ k := nth ((j + k) mod 4)%nat x 0 in
  let (f, n) := m5_g (i / 16) i in
  let* k := get md5_k i in
  let* w := get m n in
  let* rot := get md5_rot i in
  let v := wadd 32 (wadd 32 (wadd 32 (at_ 0%nat) (f (at_ 1%nat) (at_ 2%nat) (at_ 3%nat))) k) w in
  Ok (upd x j (wadd 32 (at_ 1%nat) (rolv 32 v rot))).
(** the register in the place of A in call [t]: a, d, c, b *)
Definition m5_first (t : nat) : nat := ((4 - t mod 4) mod 4)%nat.
(** md5.c:116-180; four loops of 16 calls *)
Definition m5_process (h data : list N) : res (list N) :=
  let m := map (fun i => load32l data (4 * i)) (seq 0 16) in
  let* x := mfor 64 0 (fun i x => m5_round i (m5_first i) m x) h in
  Ok (map (fun q => wadd 32 (fst q) (snd q)) (combine h x)).

Definition md5_iv : list N := [0x67452301; 0xEFCDAB89; 0x98BADCFE; 0x10325476].
(** md5.c: input 182-202, finish 204-226, output 228-235 *)
Definition md5_md : mdp := {|
  mp_bs := 64; mp_lenat := 56; mp_pad := 0x80; mp_len l := flat_map store64l l;
  mp_process := m5_process; mp_out h i n := store32l_array h i n; mp_maxout := 16 |}.
(** md5.c:93-114; the rounds are ignored *)
Definition md5_start (r : N) (n : nat) (buf : list N) : res rmd := Ok (0, md_start 1 md5_iv buf).
(** md5.c:237-297 *)
Definition hash_md5 : hash := md_hash (fun _ => md5_md) md5_start 16 64.
