(** The round parameter of a block cipher: asked for [r] rounds, the object is the [r]-round member [E r] of a family.  The
    round count is at least 1, since 0 asks for the default. *)
From Coq Require Import NArith Arith List Bool.
From Verif Require Import Lib.Res Lib.Bytes Spec.Words Spec.Block Spec.Gf Spec.Affine Spec.Arx Spec.Sha2 Spec.Pub1 Spec.Pub2 Spec.Pub3 Spec.Pub5 Spec.Pub6 Model.BlockApi Model.Threefish.
Import ListNotations.
Local Open Scope N_scope.

Definition is_rounds (c : bcipher) (ok : nat -> list N -> Prop) (E : nat -> list N -> list N -> list N) : Prop :=
  forall r key, bytes_ok key -> (0 < r)%nat -> ok r key -> exists s, bc_create c (N.of_nat r) key = Ok s /\
    forall pt, blk (bc_bs c) pt -> bc_enc c s pt = Ok (E r key pt) /\ bc_dec c s (E r key pt) = Ok pt.

(** The words, of [k] bytes each, that a key of [len] bytes touches *)
Definition words_of (k len : nat) : nat := Nat.div (len + (k - 1)) k.

(** XTEA with a key of n = 1 .. 4 words, the last filled with zero bytes: the remainder by n in place of the two low bits
    chooses the key word *)
Definition xtea_cycle_any (n : nat) (k : list N) (v : N * N) (i : nat) : N * N :=
  let sum0 := (N.of_nat i * golden) mod 2 ^ 32 in
  let sum1 := ((N.of_nat i + 1) * golden) mod 2 ^ 32 in
  let y := add32 (fst v) (N.lxor (xtea_mix (snd v)) (add32 sum0 (word k (N.to_nat (sum0 mod N.of_nat n))))) in
  (y, add32 (snd v) (N.lxor (xtea_mix y) (add32 sum1 (word k (N.to_nat (sum1 / 2 ^ 11 mod N.of_nat n)))))).
Definition xtea_any (cycles : nat) (key pt : list N) : list N :=
  let n := words_of 4 (length key) in
  let w := be_words 4 2 pt in
  let v := fold_left (xtea_cycle_any n (be_words 4 n (zero_pad (4 * n) key))) (seq 0 cycles) (word w 0, word w 1) in
  be_string 4 [fst v; snd v].

(** SPECK and SIMON with whole key words, filled with zero bytes; SIMON has at least [least] of them *)
Definition speck_any (w : N) (b : nat) (alpha beta : N) (T : nat) (key : list N) : list N -> list N :=
  speck_cipher w b alpha beta T (zero_pad (b * words_of b (length key)) key).
Definition simon_words_of (b least : nat) (key : list N) : nat := Nat.max least (words_of b (length key)).
Definition simon32_any (T : nat) (key : list N) : list N -> list N := simon_cipher 16 2 0 T (zero_pad 8 key).
Definition simon64_any (T : nat) (key : list N) : list N -> list N :=
  let m := simon_words_of 4 3 key in simon_cipher 32 4 (m - 1) T (zero_pad (4 * m) key).
Definition simon128_any (T : nat) (key : list N) : list N -> list N :=
  let m := simon_words_of 8 2 key in simon_cipher 64 8 m T (zero_pad (8 * m) key).
(** the lengths and round counts for which the object can be made: the schedule fits in 2^32 bytes, the round number of SPECK in a
    word, and SIMON has a round for every key word *)
Definition speck_when (b : nat) (w : N) (r : nat) (key : list N) : Prop :=
  (b < length key <= 4 * b)%nat /\ N.of_nat r < 2 ^ w /\ N.of_nat r * N.of_nat b < 2 ^ 32.
Definition simon_when (b least r : nat) (key : list N) : Prop :=
  (0 < length key <= 4 * b)%nat /\ (simon_words_of b least key <= r)%nat /\ N.of_nat r * N.of_nat b < 2 ^ 32.

(** LEA: a key of at most 16, 24 or 32 bytes, filled with zero bytes *)
Definition lea_any (r : nat) (key pt : list N) : list N :=
  let x := le_words 4 4 pt in
  le_string 4 (if length key <=? 16 then lea_run lea_key128 (le_words 4 4 (zero_pad 16 key)) x r
               else if length key <=? 24 then lea_run lea_key192 (le_words 4 6 (zero_pad 24 key)) x r
               else lea_run lea_key256 (le_words 4 8 (zero_pad 32 key)) x r)%nat.

(** IDEA with [r] rounds and the output transformation *)
Definition idea_any (r : nat) (key pt : list N) : list N :=
  let k := idea_subkey (zero_pad 16 key) in
  let w := be_words 2 4 pt in
  let '(x1, x2, x3, x4) := fold_left (idea_round k) (seq 0 r) (word w 0, word w 1, word w 2, word w 3) in
  be_string 2 [idea_times x1 (k (6 * r)%nat); add16 x3 (k (6 * r + 1)%nat); add16 x2 (k (6 * r + 2)%nat); idea_times x4 (k (6 * r + 3)%nat)].

(** SAFER K and SK, with keys of 8 or 16 bytes, and SAFER++, with keys of 16 or 32 *)
Definition safer_any (sk : bool) (r : nat) (key : list N) : list N -> list N :=
  sfr_full safer_M (sfr_subkey 8 (safer_sel sk) safer_bias (firstn 8 key) (if Nat.eqb (length key) 16 then skipn 8 key else key)) r.
Definition saferpp_any (r : nat) (key : list N) : list N -> list N :=
  sfr_full saferpp_M (sfr_subkey 16 saferpp_sel saferpp_bias (if Nat.eqb (length key) 32 then skipn 16 key else key) (firstn 16 key)) r.

(** Noekeon with [r] rounds before the last theta *)
Definition noekeon_any (r : nat) (key pt : list N) : list N :=
  let k := be_words 4 4 (zero_pad 16 key) in
  be_string 4 (noekeon_first k r (fold_left (noekeon_round k) (seq 0 r) (be_words 4 4 pt))).

(** CRAX with [r] steps *)
Definition crax_any (r : nat) (key pt : list N) : list N :=
  let k := le_words 4 4 (zero_pad 16 key) in
  let w := le_words 4 2 pt in
  let v := crax_add k r (fold_left (crax_step k) (seq 0 r) (word w 0, word w 1)) in
  le_string 4 [fst v; snd v].

(** Khazad with [r] rounds, the last of them without the linear map *)
Definition khazad_any (r : nat) (key pt : list N) : list N :=
  let K i := nth (i + 2) (khazad_keys (r + 1) (zero_pad 16 key)) [] in
  xor_list (khazad_gamma (fold_left (fun a i => khazad_rho (K i) a) (seq 1 (r - 1)) (xor_list pt (K 0%nat)))) (K r).

(** Anubis with [r] rounds, the last of them without the linear map *)
Definition anubis_any (r : nat) (key pt : list N) : list N :=
  let n := ((length key + 3) / 4)%nat in
  let K := anubis_key n (zero_pad (4 * n) key) in
  let a := fold_left (fun a i => anubis_sigma (K i) (anubis_theta (anubis_tau (anubis_gamma a)))) (seq 1 (r - 1))
    (anubis_sigma (K 0%nat) (rows_of 4 pt)) in
  concat (anubis_sigma (K r) (anubis_tau (anubis_gamma a))).

(** SEED with [r] rounds; the constant of the key schedule is rotated once more for each *)
Definition seed_keys_any (r : nat) (key : list N) : list (N * N) :=
  let w := be_words 8 2 key in snd (fold_left seed_more (seq 0 r) (word w 0, word w 1, [])).
Definition seed_any (r : nat) (key pt : list N) : list N :=
  let w := be_words 4 4 pt in
  let '(L, R) := fold_left seed_feistel (seed_keys_any r (zero_pad 16 key)) ((word w 0, word w 1), (word w 2, word w 3)) in
  be_string 4 [fst R; snd R; fst L; snd L].

(** SHACAL-2 with the first [r] steps of SHA-256 *)
Definition shacal2_any (r : nat) (key pt : list N) : list N :=
  be_string 4 (sha2_steps f256 (firstn r (f_k f256)) (schedule f256 (r - 16) (be_words 4 16 (zero_pad 64 key))) (be_words 4 8 pt)).

(** Threefish with a tweak, the number of rounds a multiple of 8 *)
Definition is_tweak_rounds (p : tf_par) (E : nat -> list N -> list N -> list N -> list N) : Prop :=
  forall r key tweak, (0 < r)%nat -> (r mod 8 = 0)%nat /\ N.of_nat r < 2 ^ 32 -> key_ok (8 * tf_n p) key -> bytes_ok tweak -> (length tweak <= 16)%nat ->
    exists s s', tf_create p (N.of_nat r) key = Ok s /\ tf_tweak s tweak = Ok s' /\
      forall pt, blk (8 * tf_n p) pt -> tf_encrypt p s' pt = Ok (E r key tweak pt) /\ tf_decrypt p s' (E r key tweak pt) = Ok pt.
Definition threefish256_any := threefish_cipher 4 [0; 3; 2; 1]%nat
  [[14; 16]; [52; 57]; [23; 40]; [5; 37]; [25; 33]; [46; 12]; [58; 22]; [32; 32]].
Definition threefish512_any := threefish_cipher 8 [2; 1; 4; 7; 6; 5; 0; 3]%nat
  [[46; 36; 19; 37]; [33; 27; 14; 42]; [17; 49; 36; 39]; [44; 9; 54; 56];
   [39; 30; 34; 24]; [13; 50; 10; 17]; [25; 29; 39; 43]; [8; 35; 56; 22]].
Definition threefish1024_any := threefish_cipher 16 [0; 9; 2; 13; 6; 11; 4; 15; 10; 7; 12; 3; 14; 5; 8; 1]%nat
  [[24; 13; 8; 47; 8; 17; 22; 37]; [38; 19; 10; 55; 49; 18; 23; 52]; [33; 4; 51; 13; 34; 41; 59; 17]; [5; 20; 48; 41; 47; 28; 16; 25];
   [41; 9; 37; 31; 12; 47; 44; 30]; [16; 34; 56; 51; 4; 53; 42; 41]; [31; 44; 47; 46; 19; 42; 44; 25]; [9; 48; 35; 52; 23; 31; 37; 20]].

(** SM4 with [r] rounds and as many round keys *)
Definition sm4_keys_any (r : nat) (key : list N) : list N :=
  snd (fold_left (fun s i => let K := sm4_next sm4_T' (fst s) (sm4_CK i) in (K, snd s ++ [word K 3])) (seq 0 r)
    (xor_list (be_words 4 4 key) sm4_FK, [])).
Definition sm4_any (r : nat) (key pt : list N) : list N :=
  be_string 4 (rev (fold_left (sm4_next sm4_T) (sm4_keys_any r (zero_pad 16 key)) (be_words 4 4 pt))).

(** RECTANGLE with [r] rounds before the last key *)
Definition rectangle_rounds_any (r : nat) (next : list N -> nat -> list N) (k x : list N) : list N :=
  rectangle_add next k r (fold_left (rectangle_round next k) (seq 0 r) x).
Definition rectangle_any (r : nat) (key pt : list N) : list N :=
  be_string 2 (if (length key <=? 10)%nat
    then rectangle_rounds_any r rectangle_next80 (be_words 2 5 (zero_pad 10 key)) (be_words 2 4 pt)
    else rectangle_rounds_any r rectangle_next128 (be_words 4 4 (zero_pad 16 key)) (be_words 2 4 pt)).

(** Serpent with [r] rounds, the last of them without the linear map; round key [i] is made with the S-box 3 - i modulo 8 *)
Definition serpent_key_any (w : list N) (i : nat) : list N := serpent_S (3 + 7 * i) (slice (8 + 4 * i) 4 w).
Definition serpent_prekeys_any (r : nat) (key : list N) : list N :=
  let k := if Nat.ltb (length key) 32 then zero_pad 32 (key ++ [1]) else key in
  fold_left serpent_next (seq 8 (4 * (r + 1))) (le_words 4 8 k).
Definition serpent_any (r : nat) (key pt : list N) : list N :=
  let K := serpent_key_any (serpent_prekeys_any r key) in
  let x := fold_left (fun x i => serpent_L (serpent_S i (xor_list x (K i)))) (seq 0 (r - 1)) (le_words 4 4 pt) in
  le_string 4 (xor_list (serpent_S (r - 1) (xor_list x (K (r - 1)%nat))) (K r)).

(** Twofish with [r] rounds and 8 + 2 r subkeys *)
Definition twofish_full_any (r : nat) (key pt : list N) : list N :=
  let K := tf_K key in
  let g x := tf_h x (tf_S key) in
  let P := le_words 4 4 pt in
  let w i := N.lxor (nth i P 0) (K i) in
  let '(R0, R1, R2, R3) := fold_left (tf_round g K) (seq 0 r) (w 0%nat, w 1%nat, w 2%nat, w 3%nat) in
  le_string 4 [N.lxor R2 (K 4%nat); N.lxor R3 (K 5%nat); N.lxor R0 (K 6%nat); N.lxor R1 (K 7%nat)].
Definition twofish_any (r : nat) (key pt : list N) : list N := twofish_full_any r (zero_pad (tf_size (length key)) key) pt.

(** ARIA with [r] rounds, the last of them with a second key in place of the diffusion layer *)
Definition aria_full_any (r : nat) (key pt : list N) : list N :=
  let ek := aria_ek (aria_W key) in
  let p := fold_left (fun p i => if Nat.even i then aria_FO p (ek i) else aria_FE p (ek i)) (seq 0 (r - 1)) pt in
  xor_list (aria_SL aria_boxes_even (xor_list p (ek (r - 1)%nat))) (ek r).
Definition aria_any (r : nat) (key pt : list N) : list N := aria_full_any r (zero_pad (aria_size (length key)) key) pt.
