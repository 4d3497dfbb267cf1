(** Published block ciphers made of additions, rotations and exclusive ors, from their papers.  Halves and words are
    numbers below [2^w]; the byte order of keys and blocks is the one of the reference implementations. *)
From Coq Require Import String.
From Coq Require Import NArith Arith List Bool Ascii.
From Verif Require Import Lib.Res Lib.Bytes Spec.Words Spec.Block Model.BlockApi Model.Threefish.
Import ListNotations.
Local Open Scope N_scope.

(** A cipher of the library, with the default rounds and every key [ok] allows, is [E]. *)
Definition is_cipher (c : bcipher) (ok : list N -> Prop) (E : list N -> list N -> list N) : Prop :=
  forall key, bytes_ok key -> ok key -> exists s, bc_create c 0 key = Ok s /\
    forall pt, blk (bc_bs c) pt -> bc_enc c s pt = Ok (E key pt) /\ bc_dec c s (E key pt) = Ok pt.
(** The same for Threefish and every tweak of at most 16 bytes set after the key. *)
Definition is_tweak_cipher (p : tf_par) (E : list N -> list N -> list N -> list N) : Prop :=
  forall key tweak, key_ok (8 * tf_n p) key -> bytes_ok tweak -> (List.length tweak <= 16)%nat ->
    exists s s', tf_create p 0 key = Ok s /\ tf_tweak s tweak = Ok s' /\
      forall pt, blk (8 * tf_n p) pt -> tf_encrypt p s' pt = Ok (E key tweak pt) /\ tf_decrypt p s' (E key tweak pt) = Ok pt.
(** keys of 1 .. [n] bytes, or of the sizes in a list *)
Definition up_to (n : nat) (key : list N) : Prop := (0 < length key <= n)%nat.
Definition sized (l : list nat) (key : list N) : Prop := In (length key) l.

Definition word (l : list N) (i : nat) : N := nth i l 0.
Definition add32 (x y : N) : N := plus_w 32 x y.
(** 2^32 divided by the golden ratio *)
Definition golden : N := 0x9E3779B9.

(** Wheeler, Needham, "TEA, a Tiny Encryption Algorithm": 32 cycles *)
Definition tea_mix (z sum ka kb : N) : N :=
  N.lxor (N.lxor (add32 ((z * 16) mod 2 ^ 32) ka) (add32 z sum)) (add32 (z / 32) kb).
Definition tea_cycle (k : list N) (v : N * N) (i : nat) : N * N :=
  let sum := ((N.of_nat i + 1) * golden) mod 2 ^ 32 in
  let y := add32 (fst v) (tea_mix (snd v) sum (word k 0) (word k 1)) in
  (y, add32 (snd v) (tea_mix y sum (word k 2) (word k 3))).
Definition tea_cipher (cycles : nat) (key pt : list N) : list N :=
  let w := be_words 4 2 pt in
  let v := fold_left (tea_cycle (be_words 4 4 (zero_pad 16 key))) (seq 0 cycles) (word w 0, word w 1) in
  be_string 4 [fst v; snd v].

(** Needham, Wheeler, "Tea extensions": XTEA, 32 cycles; sum & 3 and sum >> 11 & 3 choose the key words *)
Definition xtea_mix (z : N) : N := add32 (N.lxor ((z * 16) mod 2 ^ 32) (z / 32)) z.
Definition xtea_cycle (k : list N) (v : N * N) (i : nat) : N * N :=
  let sum0 := (N.of_nat i * golden) mod 2 ^ 32 in
  let sum1 := ((N.of_nat i + 1) * golden) mod 2 ^ 32 in
  let y := add32 (fst v) (N.lxor (xtea_mix (snd v)) (add32 sum0 (word k (N.to_nat (sum0 mod 4))))) in
  (y, add32 (snd v) (N.lxor (xtea_mix y) (add32 sum1 (word k (N.to_nat (sum1 / 2 ^ 11 mod 4)))))).
Definition xtea_cipher (cycles : nat) (key pt : list N) : list N :=
  let w := be_words 4 2 pt in
  let v := fold_left (xtea_cycle (be_words 4 4 key)) (seq 0 cycles) (word w 0, word w 1) in
  be_string 4 [fst v; snd v].

(** Rivest, "The RC5 encryption algorithm", with w = 32: the key expansion makes a table of [t] words; a rotation
    count is taken modulo 32 *)
Definition rot32 (x n : N) : N := rotl 32 x (n mod 32).
Record rc5_st := { ks_S : list N; ks_L : list N; ks_A : N; ks_B : N }.
Definition rc5_mixing (t c : nat) (s : rc5_st) (n : nat) : rc5_st :=
  let i := (n mod t)%nat in let j := (n mod c)%nat in
  let A := rotl 32 (add32 (add32 (word (ks_S s) i) (ks_A s)) (ks_B s)) 3 in
  let B := rot32 (add32 (add32 (word (ks_L s) j) A) (ks_B s)) (add32 A (ks_B s)) in
  {| ks_S := upd (ks_S s) i A; ks_L := upd (ks_L s) j B; ks_A := A; ks_B := B |}.
Definition rc5_table (t : nat) (key : list N) : list N :=
  let c := Nat.div (length key + 3) 4 in
  let S0 := map (fun i => (0xB7E15163 + N.of_nat i * golden) mod 2 ^ 32) (seq 0 t) in
  let L0 := le_words 4 c (zero_pad (4 * c) key) in
  ks_S (fold_left (rc5_mixing t c) (seq 0 (3 * Nat.max t c)) {| ks_S := S0; ks_L := L0; ks_A := 0; ks_B := 0 |}).
Definition rc5_round (T : list N) (v : N * N) (i : nat) : N * N :=
  let A := add32 (rot32 (N.lxor (fst v) (snd v)) (snd v)) (word T (2 * i)) in
  (A, add32 (rot32 (N.lxor (snd v) A) A) (word T (2 * i + 1))).
Definition rc5_cipher (r : nat) (key pt : list N) : list N :=
  let T := rc5_table (2 * (r + 1)) key in
  let w := le_words 4 2 pt in
  let v := fold_left (rc5_round T) (seq 1 r) (add32 (word w 0) (word T 0), add32 (word w 1) (word T 1)) in
  le_string 4 [fst v; snd v].

(** Rivest, Robshaw, Sidney, Yin, "The RC6 block cipher": registers A, B, C, D *)
Definition rc6_f (x : N) : N := rotl 32 ((x * (2 * x + 1)) mod 2 ^ 32) 5.
Definition rc6_round (T : list N) (v : N * N * N * N) (i : nat) : N * N * N * N :=
  let '(A, B, C, D) := v in
  let t := rc6_f B in let u := rc6_f D in
  let A := add32 (rot32 (N.lxor A t) u) (word T (2 * i)) in
  let C := add32 (rot32 (N.lxor C u) t) (word T (2 * i + 1)) in
  (B, C, D, A).
Definition rc6_cipher (r : nat) (key pt : list N) : list N :=
  let T := rc5_table (2 * r + 4) key in
  let w := le_words 4 4 pt in
  let '(A, B, C, D) := fold_left (rc6_round T) (seq 1 r)
    (word w 0, add32 (word w 1) (word T 0), word w 2, add32 (word w 3) (word T 1)) in
  le_string 4 [add32 A (word T (2 * r + 2)); B; add32 C (word T (2 * r + 3)); D].

(** Beaulieu and others, "The SIMON and SPECK families of lightweight block ciphers".  Words of [w] = 8 [b] bits;
    the key words are (l[m-2], .., l[0], k[0]), k[0] first in memory; in a block the word y is first. *)
Section Speck.
  Variables (w : N) (b : nat) (alpha beta : N).
  Definition speck_fn (k : N) (v : N * N) : N * N :=
    let x := N.lxor (plus_w w (rotr w (fst v) alpha) (snd v)) k in
    (x, N.lxor (rotl w (snd v) beta) x).
  (** from the lists l and k to the next ones *)
  Definition speck_more (s : list N * list N) (i : nat) : list N * list N :=
    let '(l, k) := s in
    let '(l', k') := speck_fn (N.of_nat i) (word l i, word k i) in
    (l ++ [l'], k ++ [k']).
  Definition speck_cipher (T : nat) (key pt : list N) : list N :=
    let m := Nat.div (length key) b in
    let K := le_words b m key in
    let ks := snd (fold_left speck_more (seq 0 (T - 1)) (tl K, [word K 0])) in
    let v := le_words b 2 pt in
    let '(x, y) := fold_left (fun v i => speck_fn (word ks i) v) (seq 0 T) (word v 1, word v 0) in
    le_string b [y; x].
End Speck.

(** SIMON: the constant sequences of the paper, first bit first *)
Definition simon_z : list string :=
  ["11111010001001010110000111001101111101000100101011000011100110";
   "10001110111110010011000010110101000111011111001001100001011010";
   "10101111011100000011010010011000101000010001111110010110110011";
   "11011011101011000110010111100000010010001010011100110100001111";
   "11010001111001101011011000100000010111000011001010010011101111"]%string.
Definition z_bit (j i : nat) : N := nth (i mod 62) (ascii_bytes (nth j simon_z EmptyString)) 48 - 48.
Section Simon.
  Variables (w : N) (b : nat).
  Definition simon_fn (x : N) : N := N.lxor (N.land (rotl w x 1) (rotl w x 8)) (rotl w x 2).
  (** [m] key words, sequence number [j] *)
  Definition simon_more (m j : nat) (k : list N) (i : nat) : list N :=
    let tmp := rotr w (word k (i - 1)) 3 in
    let tmp := if Nat.eqb m 4 then N.lxor tmp (word k (i - 3)) else tmp in
    let tmp := N.lxor tmp (rotr w tmp 1) in
    k ++ [N.lxor (N.lxor (N.lxor (2 ^ w - 1 - word k (i - m)) tmp) (z_bit j (i - m))) 3].
  Definition simon_round (ks : list N) (v : N * N) (i : nat) : N * N :=
    (N.lxor (N.lxor (snd v) (simon_fn (fst v))) (word ks i), fst v).
  Definition simon_cipher (j T : nat) (key pt : list N) : list N :=
    let m := Nat.div (length key) b in
    let ks := fold_left (simon_more m j) (seq m (T - m)) (le_words b m key) in
    let v := le_words b 2 pt in
    let '(x, y) := fold_left (simon_round ks) (seq 0 T) (word v 1, word v 0) in
    le_string b [y; x].
End Simon.
(** z2, z3 for 64 bit blocks and z2, z3, z4 for 128 bits *)
Definition simon64_cipher (key : list N) : list N -> list N :=
  if Nat.eqb (List.length key) 12 then simon_cipher 32 4 2 42 key else simon_cipher 32 4 3 44 key.
Definition simon128_cipher (key : list N) : list N -> list N :=
  if Nat.eqb (List.length key) 16 then simon_cipher 64 8 2 68 key
  else if Nat.eqb (List.length key) 24 then simon_cipher 64 8 3 69 key else simon_cipher 64 8 4 72 key.

(** Ferguson and others, "The Skein hash function family" 1.3, section 3.3: Threefish with [n] words.  Rotations
    (table 4) are given for eight rounds, [perm] is the word permutation (table 3). *)
Section Threefish.
  Variables (n : nat) (perm : list nat) (rots : list (list N)).
  Definition tf_mix_pair (R x0 x1 : N) : list N :=
    let y0 := plus_w 64 x0 x1 in [y0; N.lxor (rotl 64 x1 R) y0].
  Definition tf_round (d : nat) (v : list N) : list N :=
    let f := flat_map (fun j => tf_mix_pair (nth j (nth (d mod 8) rots []) 0) (word v (2 * j)) (word v (2 * j + 1))) (seq 0 (n / 2)) in
    map (fun i => word f (nth i perm 0%nat)) (seq 0 n).
  (** subkey [s] of the key words [k] (n + 1 of them) and the tweak words [t] (three) *)
  Definition tf_subkey (k t : list N) (s i : nat) : N :=
    let x := word k ((s + i) mod (n + 1)) in
    if Nat.eqb i (n - 3) then plus_w 64 x (word t (s mod 3))
    else if Nat.eqb i (n - 2) then plus_w 64 x (word t ((s + 1) mod 3))
    else if Nat.eqb i (n - 1) then plus_w 64 x (N.of_nat s) else x.
  Definition tf_add_key (k t : list N) (s : nat) (v : list N) : list N :=
    map (fun i => plus_w 64 (word v i) (tf_subkey k t s i)) (seq 0 n).
  Definition tf_step (k t : list N) (v : list N) (d : nat) : list N :=
    tf_round d (if Nat.eqb (d mod 4) 0 then tf_add_key k t (d / 4) v else v).
  Definition threefish_cipher (rounds : nat) (key tweak pt : list N) : list N :=
    let K := le_words 8 n (zero_pad (8 * n) key) in
    let k := K ++ [fold_left N.lxor K 0x1BD11BDAA9FC1A22] in
    let T := le_words 8 2 (zero_pad 16 tweak) in
    let t := T ++ [N.lxor (word T 0) (word T 1)] in
    le_string 8 (tf_add_key k t (rounds / 4) (fold_left (tf_step k t) (seq 0 rounds) (le_words 8 n pt))).
End Threefish.
Definition threefish256_cipher := threefish_cipher 4 [0; 3; 2; 1]%nat
  [[14; 16]; [52; 57]; [23; 40]; [5; 37]; [25; 33]; [46; 12]; [58; 22]; [32; 32]] 72.
Definition threefish512_cipher := threefish_cipher 8 [2; 1; 4; 7; 6; 5; 0; 3]%nat
  [[46; 36; 19; 37]; [33; 27; 14; 42]; [17; 49; 36; 39]; [44; 9; 54; 56];
   [39; 30; 34; 24]; [13; 50; 10; 17]; [25; 29; 39; 43]; [8; 35; 56; 22]] 72.
Definition threefish1024_cipher := threefish_cipher 16 [0; 9; 2; 13; 6; 11; 4; 15; 10; 7; 12; 3; 14; 5; 8; 1]%nat
  [[24; 13; 8; 47; 8; 17; 22; 37]; [38; 19; 10; 55; 49; 18; 23; 52]; [33; 4; 51; 13; 34; 41; 59; 17]; [5; 20; 48; 41; 47; 28; 16; 25];
   [41; 9; 37; 31; 12; 47; 44; 30]; [16; 34; 56; 51; 4; 53; 42; 41]; [31; 44; 47; 46; 19; 42; 44; 25]; [9; 48; 35; 52; 23; 31; 37; 20]] 80.

(** Hong and others, "LEA: a 128-bit block cipher"; the constants are those of the standard *)
Definition lea_delta : list N :=
  [0xC3EFE9DB; 0x44626B02; 0x79E27C8A; 0x78DF30EC; 0x715EA49E; 0xC785DA0A; 0xE04EF22A; 0xE5C40957].
Definition lea_turn (T : list N) (i j : nat) (d : N) (idx : nat) : list N :=
  upd T idx (rotl 32 (add32 (word T idx) (rot32 d (N.of_nat (i + j)))) (nth j [1; 3; 6; 11; 13; 17] 0)).
(** key words T to the round key of round [i] and the next T *)
Definition lea_key128 (T : list N) (i : nat) : list N * list N :=
  let d := word lea_delta (i mod 4) in
  let T := fold_left (fun T j => lea_turn T i j d j) (seq 0 4) T in
  (T, map (word T) [0; 1; 2; 1; 3; 1]%nat).
Definition lea_key192 (T : list N) (i : nat) : list N * list N :=
  let d := word lea_delta (i mod 6) in
  let T := fold_left (fun T j => lea_turn T i j d j) (seq 0 6) T in
  (T, map (word T) (seq 0 6)).
Definition lea_key256 (T : list N) (i : nat) : list N * list N :=
  let d := word lea_delta (i mod 8) in
  let T := fold_left (fun T j => lea_turn T i j d ((6 * i + j) mod 8)) (seq 0 6) T in
  (T, map (fun j => word T ((6 * i + j) mod 8)) (seq 0 6)).
Definition lea_round (rk x : list N) : list N :=
  [rotl 32 (add32 (N.lxor (word x 0) (word rk 0)) (N.lxor (word x 1) (word rk 1))) 9;
   rotr 32 (add32 (N.lxor (word x 1) (word rk 2)) (N.lxor (word x 2) (word rk 3))) 5;
   rotr 32 (add32 (N.lxor (word x 2) (word rk 4)) (N.lxor (word x 3) (word rk 5))) 3;
   word x 0].
Definition lea_run (next : list N -> nat -> list N * list N) (T x : list N) (rounds : nat) : list N :=
  snd (fold_left (fun s i => let '(T, rk) := next (fst s) i in (T, lea_round rk (snd s))) (seq 0 rounds) (T, x)).
Definition lea_cipher (key pt : list N) : list N :=
  let x := le_words 4 4 pt in
  le_string 4 (match Nat.div (length key) 8 with
               | 2%nat => lea_run lea_key128 (le_words 4 4 key) x 24
               | 3%nat => lea_run lea_key192 (le_words 4 6 key) x 28
               | _ => lea_run lea_key256 (le_words 4 8 key) x 32
               end).

(** GOST 28147-89 (RFC 5830): 32 rounds, the eight key words three times in order and once in reverse; the S-box row
    [j] replaces bits 4j .. 4j+3 *)
Definition gost_digit (sb : list (list N)) (x : N) (j : nat) : N :=
  nth (N.to_nat (x / 16 ^ N.of_nat j mod 16)) (nth j sb []) 0 * 16 ^ N.of_nat j.
Definition gost_fn (sb : list (list N)) (x : N) : N :=
  rotl 32 (fold_left (fun s j => s + gost_digit sb x j) (seq 0 8) 0) 11.
Definition gost_order : list nat := (seq 0 8 ++ seq 0 8 ++ seq 0 8 ++ rev (seq 0 8)).
Definition gost_round (sb : list (list N)) (v : N * N) (k : N) : N * N :=
  (N.lxor (snd v) (gost_fn sb (add32 (fst v) k)), fst v).
Definition gost_cipher (sb : list (list N)) (key pt : list N) : list N :=
  let K := le_words 4 8 key in
  let w := le_words 4 2 pt in
  let v := fold_left (gost_round sb) (map (word K) gost_order) (word w 0, word w 1) in
  le_string 4 [snd v; fst v].

(** Lai, Massey, IDEA: multiplication modulo 2^16 + 1 with 0 standing for 2^16 *)
Definition idea_times (a b : N) : N :=
  let big x := if x =? 0 then 65536 else x in (big a * big b) mod 65537 mod 65536.
Definition add16 (x y : N) : N := plus_w 16 x y.
(** subkey number [i]: word [i mod 8] of the 128 bit key rotated left by 25 bits [i / 8] times *)
Definition idea_subkey (key : list N) (i : nat) : N :=
  let K := be_val key in
  Nat.iter (i / 8) (fun k => rotl 128 k 25) K / 2 ^ (16 * N.of_nat (7 - i mod 8)) mod 2 ^ 16.
Definition idea_round (k : nat -> N) (x : N * N * N * N) (i : nat) : N * N * N * N :=
  let '(x1, x2, x3, x4) := x in
  let Z j := k (6 * i + j)%nat in
  let a := idea_times x1 (Z 0%nat) in let b := add16 x2 (Z 1%nat) in
  let c := add16 x3 (Z 2%nat) in let d := idea_times x4 (Z 3%nat) in
  let e := N.lxor a c in let f := N.lxor b d in
  let g := idea_times e (Z 4%nat) in
  let h := idea_times (add16 f g) (Z 5%nat) in
  let i := add16 g h in
  (N.lxor a h, N.lxor c h, N.lxor b i, N.lxor d i).
Definition idea_cipher (key pt : list N) : list N :=
  let k := idea_subkey (zero_pad 16 key) in
  let w := be_words 2 4 pt in
  let '(x1, x2, x3, x4) := fold_left (idea_round k) (seq 0 8) (word w 0, word w 1, word w 2, word w 3) in
  be_string 2 [idea_times x1 (k 48%nat); add16 x3 (k 49%nat); add16 x2 (k 50%nat); idea_times x4 (k 51%nat)].
