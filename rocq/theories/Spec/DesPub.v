(** FIPS 46-3 and SP 800-67: DES and triple DES, on strings of bits, the first bit of a byte is its most significant one. *)
From Coq Require Import NArith Arith List Bool.
From Verif Require Import Lib.Bytes Spec.Words.
Import ListNotations.
Local Open Scope N_scope.

(** the [n] bits of a number, most significant first, and the number of a string of bits *)
Definition to_bits (n : nat) (x : N) : list bool := map (fun i => N.testbit x (N.of_nat (n - 1 - i))) (seq 0 n).
Definition of_bits (b : list bool) : N := fold_left (fun v (c : bool) => 2 * v + (if c then 1 else 0)) b 0.
Definition string_bits (l : list N) : list bool := flat_map (to_bits 8) l.
Definition bits_string (n : nat) (b : list bool) : list N := map (fun i => of_bits (slice (8 * i) 8 b)) (seq 0 n).
(** the bits with the given numbers, counted from 1 *)
Definition select (t : list nat) (b : list bool) : list bool := map (fun i => nth (i - 1) b false) t.
Definition xor_bits (a b : list bool) : list bool := map (fun p => xorb (fst p) (snd p)) (combine a b).

Definition fips_IP : list nat :=
  [58; 50; 42; 34; 26; 18; 10; 2; 60; 52; 44; 36; 28; 20; 12; 4;
   62; 54; 46; 38; 30; 22; 14; 6; 64; 56; 48; 40; 32; 24; 16; 8;
   57; 49; 41; 33; 25; 17; 9; 1; 59; 51; 43; 35; 27; 19; 11; 3;
   61; 53; 45; 37; 29; 21; 13; 5; 63; 55; 47; 39; 31; 23; 15; 7]%nat.
Definition fips_IP_inverse : list nat :=
  [40; 8; 48; 16; 56; 24; 64; 32; 39; 7; 47; 15; 55; 23; 63; 31;
   38; 6; 46; 14; 54; 22; 62; 30; 37; 5; 45; 13; 53; 21; 61; 29;
   36; 4; 44; 12; 52; 20; 60; 28; 35; 3; 43; 11; 51; 19; 59; 27;
   34; 2; 42; 10; 50; 18; 58; 26; 33; 1; 41; 9; 49; 17; 57; 25]%nat.
Definition fips_E : list nat :=
  [32; 1; 2; 3; 4; 5; 4; 5; 6; 7; 8; 9; 8; 9; 10; 11; 12; 13; 12; 13; 14; 15; 16; 17;
   16; 17; 18; 19; 20; 21; 20; 21; 22; 23; 24; 25; 24; 25; 26; 27; 28; 29; 28; 29; 30; 31; 32; 1]%nat.
Definition fips_P : list nat :=
  [16; 7; 20; 21; 29; 12; 28; 17; 1; 15; 23; 26; 5; 18; 31; 10;
   2; 8; 24; 14; 32; 27; 3; 9; 19; 13; 30; 6; 22; 11; 4; 25]%nat.
Definition fips_PC1 : list nat :=
  [57; 49; 41; 33; 25; 17; 9; 1; 58; 50; 42; 34; 26; 18; 10; 2; 59; 51; 43; 35; 27; 19; 11; 3; 60; 52; 44; 36;
   63; 55; 47; 39; 31; 23; 15; 7; 62; 54; 46; 38; 30; 22; 14; 6; 61; 53; 45; 37; 29; 21; 13; 5; 28; 20; 12; 4]%nat.
Definition fips_PC2 : list nat :=
  [14; 17; 11; 24; 1; 5; 3; 28; 15; 6; 21; 10; 23; 19; 12; 4; 26; 8; 16; 7; 27; 20; 13; 2;
   41; 52; 31; 37; 47; 55; 30; 40; 51; 45; 33; 48; 44; 49; 39; 56; 34; 53; 46; 42; 50; 36; 29; 32]%nat.
Definition fips_shifts : list nat := [1; 1; 2; 2; 2; 2; 2; 2; 1; 2; 2; 2; 2; 2; 2; 1]%nat.
(** S1 .. S8, four rows of sixteen *)
Definition fips_S : list (list N) :=
  [[14; 4; 13; 1; 2; 15; 11; 8; 3; 10; 6; 12; 5; 9; 0; 7;
    0; 15; 7; 4; 14; 2; 13; 1; 10; 6; 12; 11; 9; 5; 3; 8;
    4; 1; 14; 8; 13; 6; 2; 11; 15; 12; 9; 7; 3; 10; 5; 0;
    15; 12; 8; 2; 4; 9; 1; 7; 5; 11; 3; 14; 10; 0; 6; 13];
   [15; 1; 8; 14; 6; 11; 3; 4; 9; 7; 2; 13; 12; 0; 5; 10;
    3; 13; 4; 7; 15; 2; 8; 14; 12; 0; 1; 10; 6; 9; 11; 5;
    0; 14; 7; 11; 10; 4; 13; 1; 5; 8; 12; 6; 9; 3; 2; 15;
    13; 8; 10; 1; 3; 15; 4; 2; 11; 6; 7; 12; 0; 5; 14; 9];
   [10; 0; 9; 14; 6; 3; 15; 5; 1; 13; 12; 7; 11; 4; 2; 8;
    13; 7; 0; 9; 3; 4; 6; 10; 2; 8; 5; 14; 12; 11; 15; 1;
    13; 6; 4; 9; 8; 15; 3; 0; 11; 1; 2; 12; 5; 10; 14; 7;
    1; 10; 13; 0; 6; 9; 8; 7; 4; 15; 14; 3; 11; 5; 2; 12];
   [7; 13; 14; 3; 0; 6; 9; 10; 1; 2; 8; 5; 11; 12; 4; 15;
    13; 8; 11; 5; 6; 15; 0; 3; 4; 7; 2; 12; 1; 10; 14; 9;
    10; 6; 9; 0; 12; 11; 7; 13; 15; 1; 3; 14; 5; 2; 8; 4;
    3; 15; 0; 6; 10; 1; 13; 8; 9; 4; 5; 11; 12; 7; 2; 14];
   [2; 12; 4; 1; 7; 10; 11; 6; 8; 5; 3; 15; 13; 0; 14; 9;
    14; 11; 2; 12; 4; 7; 13; 1; 5; 0; 15; 10; 3; 9; 8; 6;
    4; 2; 1; 11; 10; 13; 7; 8; 15; 9; 12; 5; 6; 3; 0; 14;
    11; 8; 12; 7; 1; 14; 2; 13; 6; 15; 0; 9; 10; 4; 5; 3];
   [12; 1; 10; 15; 9; 2; 6; 8; 0; 13; 3; 4; 14; 7; 5; 11;
    10; 15; 4; 2; 7; 12; 9; 5; 6; 1; 13; 14; 0; 11; 3; 8;
    9; 14; 15; 5; 2; 8; 12; 3; 7; 0; 4; 10; 1; 13; 11; 6;
    4; 3; 2; 12; 9; 5; 15; 10; 11; 14; 1; 7; 6; 0; 8; 13];
   [4; 11; 2; 14; 15; 0; 8; 13; 3; 12; 9; 7; 5; 10; 6; 1;
    13; 0; 11; 7; 4; 9; 1; 10; 14; 3; 5; 12; 2; 15; 8; 6;
    1; 4; 11; 13; 12; 3; 7; 14; 10; 15; 6; 8; 0; 5; 9; 2;
    6; 11; 13; 8; 1; 4; 10; 7; 9; 5; 0; 15; 14; 2; 3; 12];
   [13; 2; 8; 4; 6; 15; 11; 1; 10; 9; 3; 14; 5; 0; 12; 7;
    1; 15; 13; 8; 10; 3; 7; 4; 12; 5; 6; 11; 0; 14; 9; 2;
    7; 11; 4; 1; 9; 12; 14; 2; 0; 6; 10; 13; 15; 3; 5; 8;
    2; 1; 14; 7; 4; 10; 8; 13; 15; 12; 9; 0; 3; 5; 6; 11]].

(** S-box [j] on six bits: the outer two bits are the row, the inner four the column *)
Definition fips_sbox (j : nat) (b : list bool) : list bool :=
  to_bits 4 (nth (16 * N.to_nat (of_bits [nth 0 b false; nth 5 b false]) + N.to_nat (of_bits (slice 1 4 b))) (nth j fips_S []) 0).
(** f(R, K) *)
Definition fips_f (R K : list bool) : list bool :=
  let B := xor_bits (select fips_E R) K in
  select fips_P (flat_map (fun j => fips_sbox j (slice (6 * j) 6 B)) (seq 0 8)).
(** the key schedule KS: round [n] counted from 0 *)
Definition left_shift (n : nat) (b : list bool) : list bool := skipn n b ++ firstn n b.
Definition fips_CD (key : list bool) (n : nat) : list bool * list bool :=
  fold_left (fun cd s => (left_shift s (fst cd), left_shift s (snd cd))) (firstn (S n) fips_shifts)
    (slice 0 28 (select fips_PC1 key), slice 28 28 (select fips_PC1 key)).
Definition fips_K (key : list bool) (n : nat) : list bool :=
  let cd := fips_CD key n in select fips_PC2 (fst cd ++ snd cd).
(** sixteen rounds with the keys in the given order; IP inverse of R16 L16 *)
Definition fips_rounds (key : list bool) (order : list nat) (block : list bool) : list bool :=
  let ip := select fips_IP block in
  let lr := fold_left (fun lr n => (snd lr, xor_bits (fst lr) (fips_f (snd lr) (fips_K key n)))) order (slice 0 32 ip, slice 32 32 ip) in
  select fips_IP_inverse (snd lr ++ fst lr).
Definition fips_encrypt (key : list N) (block : list bool) : list bool := fips_rounds (string_bits key) (seq 0 16) block.
Definition fips_decrypt (key : list N) (block : list bool) : list bool := fips_rounds (string_bits key) (rev (seq 0 16)) block.

(** Keys of up to 8 bytes are DES keys, up to 16 bytes keying option 2 (K1, K2, K1) and up to 24 keying option 1, zero padded. *)
Definition des_cipher (key pt : list N) : list N :=
  let k i := slice (8 * i) 8 (zero_pad 24 key) in
  let b := string_bits pt in
  bits_string 8
    (if (length key <=? 8)%nat then fips_encrypt (k 0%nat) b
     else fips_encrypt (k (if (length key <=? 16)%nat then 0 else 2)%nat) (fips_decrypt (k 1%nat) (fips_encrypt (k 0%nat) b))).
