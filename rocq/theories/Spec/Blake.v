(** BLAKE (Aumasson, Henzen, Meier, Phan, "SHA-3 proposal BLAKE", version 1.3) and BLAKE2 (RFC 7693, with the salt
    of "BLAKE2: simpler, smaller, fast as MD5").  The initial values are those of SHA-2. *)
From Coq Require Import NArith Arith List Bool.
From Verif Require Import Lib.Res Lib.Bytes Spec.Words Spec.Modes Spec.Sha2.
Import ListNotations.
Local Open Scope N_scope.

(** RFC 7693, section 2.7 *)
Definition sigma : list (list nat) :=
  [[ 0;  1;  2;  3;  4;  5;  6;  7;  8;  9; 10; 11; 12; 13; 14; 15];
   [14; 10;  4;  8;  9; 15; 13;  6;  1; 12;  0;  2; 11;  7;  5;  3];
   [11;  8; 12;  0;  5;  2; 15; 13; 10; 14;  3;  6;  7;  1;  9;  4];
   [ 7;  9;  3;  1; 13; 12; 11; 14;  2;  6;  5; 10;  4;  0; 15;  8];
   [ 9;  0;  5;  7;  2;  4; 10; 15; 14;  1; 11; 12;  6;  8;  3; 13];
   [ 2; 12;  6; 10;  0; 11;  8;  3;  4; 13;  7;  5; 15; 14;  1;  9];
   [12;  5;  1; 15; 14; 13;  4; 10;  0;  7;  6;  3;  9;  2;  8; 11];
   [13; 11;  7; 14; 12;  1;  3;  9;  5;  0; 15;  4;  8;  6;  2; 10];
   [ 6; 15; 14;  9; 11;  3;  0;  8; 12;  2; 13;  7;  1;  4; 10;  5];
   [10;  2;  8;  4;  7;  6;  1;  5; 15; 11;  9; 14;  3; 12; 13;  0]]%nat.
(** the first bits of the fraction of pi: one number of 1024 bits, cut into words *)
Definition pi_digits : N :=
  0x243F6A8885A308D313198A2E03707344A4093822299F31D0082EFA98EC4E6C89452821E638D01377BE5466CF34E90C6CC0AC29B7C97C50DD3F84D5B5B54709179216D5D98979FB1BD1310BA698DFB5AC2FFD72DBD01ADFB7B8E1AFED6A267E96BA7C9045F12C7F9924A19947B3916CF70801F2E2858EFC16636920D871574E69.
Definition pi_words (w : N) : list N := map (fun i => (pi_digits / 2 ^ (1024 - w * (N.of_nat i + 1))) mod 2 ^ w) (seq 0 16).

Record blake_fn := { bl_w : N; bl_k : nat; bl_rot : N * N * N * N }.
Definition fb256 : blake_fn := {| bl_w := 32; bl_k := 4; bl_rot := (16, 12, 8, 7) |}.
Definition fb512 : blake_fn := {| bl_w := 64; bl_k := 8; bl_rot := (32, 25, 16, 11) |}.
Definition fb2s : blake_fn := {| bl_w := 32; bl_k := 4; bl_rot := (16, 12, 8, 7) |}.
Definition fb2b : blake_fn := {| bl_w := 64; bl_k := 8; bl_rot := (32, 24, 16, 63) |}.

Section Blake.
  Variable F : blake_fn.
  Let w := bl_w F.
  Let k := bl_k F.
  Let bs := (16 * bl_k F)%nat.
  Let at_ (l : list N) (i : nat) := nth i l 0.
  (** RFC 7693, section 3.1: the mixing function on words a, b, c, d of the vector *)
  Definition mixing (v : list N) (a b c d : nat) (x y : N) : list N :=
    let '(r1, r2, r3, r4) := bl_rot F in
    let v := upd v a (plus_w w (plus_w w (at_ v a) (at_ v b)) x) in
    let v := upd v d (rotr w (N.lxor (at_ v d) (at_ v a)) r1) in
    let v := upd v c (plus_w w (at_ v c) (at_ v d)) in
    let v := upd v b (rotr w (N.lxor (at_ v b) (at_ v c)) r2) in
    let v := upd v a (plus_w w (plus_w w (at_ v a) (at_ v b)) y) in
    let v := upd v d (rotr w (N.lxor (at_ v d) (at_ v a)) r3) in
    let v := upd v c (plus_w w (at_ v c) (at_ v d)) in
    upd v b (rotr w (N.lxor (at_ v b) (at_ v c)) r4).
  (** the columns, then the diagonals; [add] gives the word for two entries of the permutation *)
  Definition mix_round (add : nat -> nat -> N) (v : list N) (r : nat) : list N :=
    let s j := nth j (nth (r mod 10) sigma []) 0%nat in
    (let v := fold_left (fun v i => mixing v i (4 + i) (8 + i) (12 + i) (add (s (2 * i)) (s (2 * i + 1))) (add (s (2 * i + 1)) (s (2 * i)))) (seq 0 4) v in
    fold_left (fun v i => mixing v i (4 + (i + 1) mod 4) (8 + (i + 2) mod 4) (12 + (i + 3) mod 4)
      (add (s (8 + 2 * i)) (s (8 + 2 * i + 1))) (add (s (8 + 2 * i + 1)) (s (8 + 2 * i)))) (seq 0 4) v)%nat.
  Definition xor_words (a b : list N) : list N := map (fun q => N.lxor (fst q) (snd q)) (combine a b).

  (** ** BLAKE: chain value [h], block [b], salt words [s], counter [t] *)
  Definition blake_compress (rounds : nat) (s h b : list N) (t : N) : list N :=
    let c := pi_words w in
    let m := be_words k 16 b in
    let t0 := t mod 2 ^ w in let t1 := t / 2 ^ w in
    let v := h ++ xor_words (s ++ [t0; t0; t1; t1]) (firstn 8 c) in
    let v := fold_left (mix_round (fun i j => N.lxor (at_ m i) (at_ c j))) (seq 0 rounds) v in
    xor_words (xor_words (xor_words h (firstn 8 v)) (skipn 8 v)) (s ++ s).
  (** A bit 1, zeros, a bit [last], the length in 2w bits: [p] bytes before the length fill the block. *)
  Definition blake_pad (last : N) (l : list N) : list N :=
    let p := (bs - (length l + 2 * k) mod bs)%nat in
    l ++ (if Nat.eqb p 1 then [0x80 + last] else 0x80 :: repeat 0 (p - 2) ++ [last]) ++ be_bytes (2 * k) (8 * N.of_nat (length l)).
  (** The number of message bits hashed so far, or 0 when block number [i] contains no bit of the message.
      With [zero = false] the rule for blocks without message bits is left out. *)
  Definition blake_counter (zero : bool) (len i : nat) : N :=
    if zero && (len <=? i * bs)%nat then 0 else 8 * N.of_nat (Nat.min len ((i + 1) * bs)).
  Definition blake_chain (zero : bool) (rounds : nat) (s iv : list N) (last : N) (l : list N) : list N :=
    let P := blake_pad last l in
    fold_left (fun h i => blake_compress rounds s h (block bs i P) (blake_counter zero (length l) i)) (seq 0 (length P / bs)) iv.

  (** ** BLAKE2: the flag [final] inverts word 14 *)
  Definition blake2_compress (rounds : nat) (iv h b : list N) (t : N) (final : bool) : list N :=
    let m := le_words k 16 b in
    let f := if final then 2 ^ w - 1 else 0 in
    let v := h ++ xor_words iv [0; 0; 0; 0; t mod 2 ^ w; t / 2 ^ w; f; 0] in
    let v := fold_left (mix_round (fun i _ => at_ m i)) (seq 0 rounds) v in
    xor_words (xor_words h (firstn 8 v)) (skipn 8 v).
  (** Parameter block: digest length, no key, fanout 1, depth 1, salt in words 4 and 5. *)
  Definition blake2_start (iv salt : list N) (nn : nat) : list N :=
    let s := le_words k 2 (zero_pad (2 * k) salt) in
    xor_words iv [0x01010000 + N.of_nat nn; 0; 0; 0; at_ s 0%nat; at_ s 1%nat; 0; 0].
  (** [dd] blocks of the zero padded message, the last one with the flag *)
  Definition blake2_chain (dd : nat) (rounds : nat) (iv h0 l : list N) : list N :=
    let P := zero_pad (dd * bs) l in
    let h := fold_left (fun h i => blake2_compress rounds iv h (block bs i P) (N.of_nat ((i + 1) * bs)) false) (seq 0 (dd - 1)) h0 in
    blake2_compress rounds iv h (block bs (dd - 1) P) (N.of_nat (length l)) true.
  (** RFC 7693, section 3.3: dd = max(1, ceil(ll / bb)) *)
  Definition blake2_blocks (len : nat) : nat := Nat.max 1 ((len + bs - 1) / bs).
End Blake.

(** the digests of BLAKE: all bytes of the chain value *)
Definition salt_words (k : nat) (salt : list N) : list N := be_words k 4 (zero_pad (4 * k) salt).
Definition blake256_r (zero : bool) (rounds : nat) (salt : list N) (n : nat) (l : list N) : list N :=
  be_string 4 (blake_chain fb256 zero rounds (salt_words 4 salt) (if (28 <? n)%nat then iv256 else iv224) (if (28 <? n)%nat then 1 else 0) l).
Definition blake512_r (zero : bool) (rounds : nat) (salt : list N) (n : nat) (l : list N) : list N :=
  be_string 8 (blake_chain fb512 zero rounds (salt_words 8 salt) (if (48 <? n)%nat then iv512 else iv384) (if (48 <? n)%nat then 1 else 0) l).
Definition blake256 := blake256_r true 14.
Definition blake512 := blake512_r true 16.
(** BLAKE2 with digests of [n] bytes *)
Definition blake2s_r (dd : nat -> nat) (rounds : nat) (salt : list N) (n : nat) (l : list N) : list N :=
  le_string 4 (blake2_chain fb2s (dd (length l)) rounds iv256 (blake2_start fb2s iv256 salt n) l).
Definition blake2b_r (dd : nat -> nat) (rounds : nat) (salt : list N) (n : nat) (l : list N) : list N :=
  le_string 8 (blake2_chain fb2b (dd (length l)) rounds iv512 (blake2_start fb2b iv512 salt n) l).
Definition blake2s := blake2s_r (blake2_blocks fb2s) 10.
Definition blake2b := blake2b_r (blake2_blocks fb2b) 12.
(** what the library computes: whole blocks are hashed without the flag, and there is always one more block *)
Definition extra_block (bs len : nat) : nat := S (len / bs).
