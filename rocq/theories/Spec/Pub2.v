(** Published ciphers that act on the bit columns of their state (Serpent, Rectangle, Noekeon), 3-Way, RC2 and CRAX. *)
From Coq Require Import NArith Arith List Bool.
From Verif Require Import Lib.Res Lib.Bytes Spec.Words Spec.Gf Spec.Affine Spec.Arx.
Import ListNotations.
Local Open Scope N_scope.

(** The number with the given bits, least significant first. *)
Definition of_bits (l : list bool) : N := fold_right (fun b v => N.b2n b + 2 * v) 0 l.
(** The nibble made of bit [j] of four words, the first word gives its least significant bit. *)
Definition column (x : list N) (j : nat) : N := of_bits (map (fun v => N.testbit v (N.of_nat j)) x).
(** The S-box, a list of 16 nibbles, on each of [w] columns. *)
Definition sub_columns (w : nat) (S : list N) (x : list N) : list N :=
  let y := map (fun j => nth (N.to_nat (column x j)) S 0) (seq 0 w) in
  map (fun i => of_bits (map (fun v => N.testbit v (N.of_nat i)) y)) (seq 0 4).

(** * Anderson, Biham, Knudsen, "Serpent: a proposal for the Advanced Encryption Standard", in the bitsliced form *)
Definition serpent_tables : list (list N) :=
  [[3; 8; 15; 1; 10; 6; 5; 11; 14; 13; 4; 2; 7; 0; 9; 12];
   [15; 12; 2; 7; 9; 0; 5; 10; 1; 11; 14; 8; 6; 13; 3; 4];
   [8; 6; 7; 9; 3; 12; 10; 15; 13; 1; 14; 4; 0; 11; 5; 2];
   [0; 15; 11; 8; 12; 9; 6; 3; 13; 1; 2; 4; 10; 7; 5; 14];
   [1; 15; 8; 3; 12; 0; 11; 6; 2; 5; 4; 10; 9; 14; 7; 13];
   [15; 5; 2; 11; 4; 10; 9; 12; 0; 3; 14; 8; 13; 6; 7; 1];
   [7; 2; 12; 5; 8; 4; 6; 11; 14; 9; 1; 15; 13; 3; 10; 0];
   [1; 13; 15; 0; 14; 8; 2; 11; 7; 4; 12; 10; 9; 3; 5; 6]].
Definition serpent_S (i : nat) (x : list N) : list N := sub_columns 32 (nth (i mod 8) serpent_tables []) x.
Definition serpent_L (x : list N) : list N :=
  let x0 := rotl 32 (word x 0) 13 in
  let x2 := rotl 32 (word x 2) 3 in
  let x1 := N.lxor (N.lxor (word x 1) x0) x2 in
  let x3 := N.lxor (N.lxor (word x 3) x2) ((x0 * 2 ^ 3) mod 2 ^ 32) in
  let x1 := rotl 32 x1 1 in
  let x3 := rotl 32 x3 7 in
  let x0 := N.lxor (N.lxor x0 x1) x3 in
  let x2 := N.lxor (N.lxor x2 x3) ((x1 * 2 ^ 7) mod 2 ^ 32) in
  [rotl 32 x0 5; x1; rotl 32 x2 22; x3].
(** The words w(-8) .. w(i-9) are the first [i] of the list; the next one is made. *)
Definition serpent_next (w : list N) (i : nat) : list N :=
  w ++ [rotl 32 (N.lxor (N.lxor (N.lxor (N.lxor (N.lxor (word w (i - 8)) (word w (i - 5))) (word w (i - 3))) (word w (i - 1))) golden)
    (N.of_nat (i - 8))) 11].
(** round key [i] of 0 .. 32, made with the S-box 3 - i modulo 8 *)
Definition serpent_key (w : list N) (i : nat) : list N := serpent_S (35 - i) (slice (8 + 4 * i) 4 w).
(** a shorter key gets a single one bit and zeros *)
Definition serpent_prekeys (key : list N) : list N :=
  let k := if Nat.ltb (length key) 32 then zero_pad 32 (key ++ [1]) else key in
  fold_left serpent_next (seq 8 132) (le_words 4 8 k).
Definition serpent_round (w : list N) (x : list N) (i : nat) : list N :=
  serpent_L (serpent_S i (xor_list x (serpent_key w i))).
Definition serpent_cipher (key pt : list N) : list N :=
  let w := serpent_prekeys key in
  let x := fold_left (serpent_round w) (seq 0 31) (le_words 4 4 pt) in
  le_string 4 (xor_list (serpent_S 31 (xor_list x (serpent_key w 31))) (serpent_key w 32)).

(** * Zhang and others, "RECTANGLE: a bit-slice lightweight block cipher suitable for multiple platforms" *)
Definition rectangle_S : list N := [6; 5; 12; 10; 1; 14; 7; 9; 11; 0; 3; 13; 8; 15; 4; 2].
(** the constants of a shift register of 5 bits, the new bit is rc4 + rc2 *)
Definition rectangle_rc (i : nat) : N :=
  nat_rect (fun _ => N) 1 (fun _ r => (2 * r) mod 32 + (r / 16 + r / 4) mod 2) i.
(** the S-box on the [c] low columns of the first four words *)
Definition rectangle_low (c : nat) (k : list N) : list N :=
  let m := 2 ^ N.of_nat c in
  let y := sub_columns c rectangle_S (map (fun v => v mod m) (firstn 4 k)) in
  map (fun i => word k i / m * m + word y i) (seq 0 4) ++ skipn 4 k.
Definition rectangle_next80 (k : list N) (i : nat) : list N :=
  let k := rectangle_low 4 k in
  [N.lxor (N.lxor (rotl 16 (word k 0) 8) (word k 1)) (rectangle_rc i); word k 2; word k 3;
   N.lxor (rotl 16 (word k 3) 12) (word k 4); word k 0].
Definition rectangle_next128 (k : list N) (i : nat) : list N :=
  let k := rectangle_low 8 k in
  [N.lxor (N.lxor (rotl 32 (word k 0) 8) (word k 1)) (rectangle_rc i); word k 2;
   N.lxor (rotl 32 (word k 2) 16) (word k 3); word k 0].
(** the key register after [i] updates; the round key is the low 16 bits of its first four words *)
Definition rectangle_reg (next : list N -> nat -> list N) (k : list N) (i : nat) : list N := fold_left next (seq 0 i) k.
Definition rectangle_add (next : list N -> nat -> list N) (k : list N) (i : nat) (x : list N) : list N :=
  xor_list x (map (fun v => v mod 2 ^ 16) (firstn 4 (rectangle_reg next k i))).
Definition rectangle_round (next : list N -> nat -> list N) (k : list N) (x : list N) (i : nat) : list N :=
  let y := sub_columns 16 rectangle_S (rectangle_add next k i x) in
  [word y 0; rotl 16 (word y 1) 1; rotl 16 (word y 2) 12; rotl 16 (word y 3) 13].
Definition rectangle_rounds (next : list N -> nat -> list N) (k x : list N) : list N :=
  rectangle_add next k 25 (fold_left (rectangle_round next k) (seq 0 25) x).
(** Keys of at most 10 bytes are taken for 80 bits, longer ones for 128.  The library has the words, which the paper
    numbers from row 0 on, in big endian order. *)
Definition rectangle_cipher (key pt : list N) : list N :=
  be_string 2 (if Nat.leb (length key) 10
    then rectangle_rounds rectangle_next80 (be_words 2 5 (zero_pad 10 key)) (be_words 2 4 pt)
    else rectangle_rounds rectangle_next128 (be_words 4 4 (zero_pad 16 key)) (be_words 2 4 pt)).

(** * Daemen, Peeters, Van Assche, Rijmen, "Nessie proposal: NOEKEON", direct key mode *)
Definition noekeon_S : list N := [7; 10; 2; 12; 4; 8; 15; 0; 5; 9; 1; 14; 3; 13; 11; 6].
Definition noekeon_t (x : N) : N := N.lxor (N.lxor x (rotr 32 x 8)) (rotl 32 x 8).
Definition noekeon_theta (k a : list N) : list N :=
  let t := noekeon_t (N.lxor (word a 0) (word a 2)) in
  let a := xor_list [word a 0; N.lxor (word a 1) t; word a 2; N.lxor (word a 3) t] k in
  let t := noekeon_t (N.lxor (word a 1) (word a 3)) in
  [N.lxor (word a 0) t; word a 1; N.lxor (word a 2) t; word a 3].
Definition noekeon_pi1 (a : list N) : list N := [word a 0; rotl 32 (word a 1) 1; rotl 32 (word a 2) 5; rotl 32 (word a 3) 2].
Definition noekeon_pi2 (a : list N) : list N := [word a 0; rotr 32 (word a 1) 1; rotr 32 (word a 2) 5; rotr 32 (word a 3) 2].
(** the constants are powers of x modulo x^8 + x^4 + x^3 + x + 1 *)
Definition noekeon_rc (i : nat) : N := gf_pow 0x11B 2 (N.of_nat (7 + i)).
Definition noekeon_first (k : list N) (i : nat) (a : list N) : list N :=
  noekeon_theta k [N.lxor (word a 0) (noekeon_rc i); word a 1; word a 2; word a 3].
Definition noekeon_round (k : list N) (a : list N) (i : nat) : list N :=
  noekeon_pi2 (sub_columns 32 noekeon_S (noekeon_pi1 (noekeon_first k i a))).
Definition noekeon_cipher (key pt : list N) : list N :=
  let k := be_words 4 4 (zero_pad 16 key) in
  be_string 4 (noekeon_first k 16 (fold_left (noekeon_round k) (seq 0 16) (be_words 4 4 pt))).

(** * Daemen, Govaerts, Vandewalle, "A new approach to block cipher design" (3-Way) *)
(** the three words as a number of 96 bits, the first word the least significant *)
Definition way_96 (a : list N) : N := word a 0 + 2 ^ 32 * word a 1 + 2 ^ 64 * word a 2.
Definition way_words (x : N) : list N := [x mod 2 ^ 32; x / 2 ^ 32 mod 2 ^ 32; x / 2 ^ 64].
(** theta is the multiplication by a polynomial *)
Definition way_theta (a : list N) : list N :=
  let x := way_96 a in way_words (fold_left (fun y n => N.lxor y (rotr 96 x n)) [16; 48; 56; 72; 80; 88] x).
Definition way_not (x : N) : N := 2 ^ 32 - 1 - x.
Definition way_gamma (a : list N) : list N :=
  let f i j k := N.lxor (word a i) (N.lor (word a j) (way_not (word a k))) in
  [f 0 1 2; f 1 2 0; f 2 0 1]%nat.
Definition way_pi1 (a : list N) : list N := [rotr 32 (word a 0) 10; word a 1; rotl 32 (word a 2) 1].
Definition way_pi2 (a : list N) : list N := [rotl 32 (word a 0) 1; word a 1; rotr 32 (word a 2) 10].
(** the constants of a shift register, from 0x0B0B on *)
Definition way_rc (i : nat) : N :=
  nat_rect (fun _ => N) 0x0B0B (fun _ r => if 2 * r <? 2 ^ 16 then 2 * r else N.lxor (2 * r) 0x11011) i.
Definition way_add (k : list N) (i : nat) (a : list N) : list N :=
  xor_list (xor_list a k) [way_rc i * 2 ^ 16; 0; way_rc i].
Definition way_round (k : list N) (a : list N) (i : nat) : list N :=
  way_pi2 (way_gamma (way_pi1 (way_theta (way_add k i a)))).
Definition threeway_cipher (key pt : list N) : list N :=
  let k := be_words 4 3 (zero_pad 12 key) in
  be_string 4 (way_theta (way_add k 11 (fold_left (way_round k) (seq 0 11) (be_words 4 3 pt)))).

(** * RFC 2268 (RC2), the effective key length is the key length *)
Definition rc2_pitable : list N :=
  [0xd9; 0x78; 0xf9; 0xc4; 0x19; 0xdd; 0xb5; 0xed; 0x28; 0xe9; 0xfd; 0x79; 0x4a; 0xa0; 0xd8; 0x9d;
   0xc6; 0x7e; 0x37; 0x83; 0x2b; 0x76; 0x53; 0x8e; 0x62; 0x4c; 0x64; 0x88; 0x44; 0x8b; 0xfb; 0xa2;
   0x17; 0x9a; 0x59; 0xf5; 0x87; 0xb3; 0x4f; 0x13; 0x61; 0x45; 0x6d; 0x8d; 0x09; 0x81; 0x7d; 0x32;
   0xbd; 0x8f; 0x40; 0xeb; 0x86; 0xb7; 0x7b; 0x0b; 0xf0; 0x95; 0x21; 0x22; 0x5c; 0x6b; 0x4e; 0x82;
   0x54; 0xd6; 0x65; 0x93; 0xce; 0x60; 0xb2; 0x1c; 0x73; 0x56; 0xc0; 0x14; 0xa7; 0x8c; 0xf1; 0xdc;
   0x12; 0x75; 0xca; 0x1f; 0x3b; 0xbe; 0xe4; 0xd1; 0x42; 0x3d; 0xd4; 0x30; 0xa3; 0x3c; 0xb6; 0x26;
   0x6f; 0xbf; 0x0e; 0xda; 0x46; 0x69; 0x07; 0x57; 0x27; 0xf2; 0x1d; 0x9b; 0xbc; 0x94; 0x43; 0x03;
   0xf8; 0x11; 0xc7; 0xf6; 0x90; 0xef; 0x3e; 0xe7; 0x06; 0xc3; 0xd5; 0x2f; 0xc8; 0x66; 0x1e; 0xd7;
   0x08; 0xe8; 0xea; 0xde; 0x80; 0x52; 0xee; 0xf7; 0x84; 0xaa; 0x72; 0xac; 0x35; 0x4d; 0x6a; 0x2a;
   0x96; 0x1a; 0xd2; 0x71; 0x5a; 0x15; 0x49; 0x74; 0x4b; 0x9f; 0xd0; 0x5e; 0x04; 0x18; 0xa4; 0xec;
   0xc2; 0xe0; 0x41; 0x6e; 0x0f; 0x51; 0xcb; 0xcc; 0x24; 0x91; 0xaf; 0x50; 0xa1; 0xf4; 0x70; 0x39;
   0x99; 0x7c; 0x3a; 0x85; 0x23; 0xb8; 0xb4; 0x7a; 0xfc; 0x02; 0x36; 0x5b; 0x25; 0x55; 0x97; 0x31;
   0x2d; 0x5d; 0xfa; 0x98; 0xe3; 0x8a; 0x92; 0xae; 0x05; 0xdf; 0x29; 0x10; 0x67; 0x6c; 0xba; 0xc9;
   0xd3; 0x00; 0xe6; 0xcf; 0xe1; 0x9e; 0xa8; 0x2c; 0x63; 0x16; 0x01; 0x3f; 0x58; 0xe2; 0x89; 0xa9;
   0x0d; 0x38; 0x34; 0x1b; 0xab; 0x33; 0xff; 0xb0; 0xbb; 0x48; 0x0c; 0x5f; 0xb9; 0xb1; 0xcd; 0x2e;
   0xc5; 0xf3; 0xdb; 0x47; 0xe5; 0xa5; 0x9c; 0x77; 0x0a; 0xa6; 0x20; 0x68; 0xfe; 0x7f; 0xc1; 0xad].
Definition rc2_PI (x : N) : N := nth (N.to_nat x) rc2_pitable 0.
(** the key buffer L: bytes T .. 127 from the front, then bytes 127 - T .. 0 from the back *)
Definition rc2_buffer (key : list N) : list N :=
  let T := length key in
  let L := fold_left (fun L i => L ++ [rc2_PI ((word L (i - 1) + word L (i - T)) mod 256)]) (seq T (128 - T)) key in
  let back := fold_left (fun B i => rc2_PI (N.lxor (word B 0) (word B (T - 1))) :: B) (seq 0 (128 - T))
    (rc2_PI (word L (128 - T)) :: skipn (129 - T) L) in
  back.
(** R[i] := (R[i] + K[j] + (R[i-1] & R[i-2]) + (~R[i-1] & R[i-3])) <<< s[i], indices modulo 4 *)
Definition rc2_mixup (K : list N) (j : nat) (R : list N) (i : nat) : list N :=
  let r d := word R ((i + 4 - d) mod 4) in
  let s := nth i [1; 2; 3; 5] 0 in
  upd R i (rotl 16 ((word R i + word K (4 * j + i) + N.land (r 1%nat) (r 2%nat) + N.land (2 ^ 16 - 1 - r 1%nat) (r 3%nat)) mod 2 ^ 16) s).
Definition rc2_mixing (K : list N) (R : list N) (j : nat) : list N := fold_left (rc2_mixup K j) (seq 0 4) R.
Definition rc2_mashing (K : list N) (R : list N) : list N :=
  fold_left (fun R i => upd R i ((word R i + word K (N.to_nat (word R ((i + 3) mod 4) mod 64))) mod 2 ^ 16)) (seq 0 4) R.
Definition rc2_cipher (key pt : list N) : list N :=
  let K := le_words 2 64 (rc2_buffer key) in
  let R := fold_left (rc2_mixing K) (seq 0 5) (le_words 2 4 pt) in
  let R := fold_left (rc2_mixing K) (seq 5 6) (rc2_mashing K R) in
  le_string 2 (fold_left (rc2_mixing K) (seq 11 5) (rc2_mashing K R)).

(** * Beierle and others, "Alzette: a 64-bit ARX-box" (CRAX-S-10) *)
Definition alzette_rots : list (N * N) := [(31, 24); (17, 17); (0, 31); (24, 16)].
Definition alzette_round (c : N) (v : N * N) (r : N * N) : N * N :=
  let x := add32 (fst v) (rotr 32 (snd v) (fst r)) in
  let y := N.lxor (snd v) (rotr 32 x (snd r)) in
  (N.lxor x c, y).
Definition alzette_box (c : N) (v : N * N) : N * N := fold_left (alzette_round c) alzette_rots v.
Definition crax_c : list N := [0xB7E15162; 0xBF715880; 0x38B4DA56; 0x324E7738; 0xBB1185EB].
Definition crax_add (k : list N) (s : nat) (v : N * N) : N * N :=
  let o := (2 * (s mod 2))%nat in (N.lxor (fst v) (word k o), N.lxor (snd v) (word k (o + 1))).
Definition crax_step (k : list N) (v : N * N) (s : nat) : N * N :=
  alzette_box (word crax_c (s mod 5)) (crax_add k s (N.lxor (fst v) (N.of_nat s), snd v)).
Definition crax_cipher (key pt : list N) : list N :=
  let k := le_words 4 4 (zero_pad 16 key) in
  let w := le_words 4 2 pt in
  let v := crax_add k 10 (fold_left (crax_step k) (seq 0 10) (word w 0, word w 1)) in
  le_string 4 [fst v; snd v].
