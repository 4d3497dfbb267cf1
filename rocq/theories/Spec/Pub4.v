(** RFC 3713, the Camellia encryption algorithm. *)
From Coq Require Import NArith Arith List Bool.
From Verif Require Import Lib.Res Lib.Bytes Spec.Words Spec.Gf Spec.Affine Spec.Pub3.
Import ListNotations.
Local Open Scope N_scope.

(** The first S-box by its definition in "Camellia: a 128-bit block cipher suitable for multiple
    platforms": affine maps around the inverse in GF(2^8), where a byte is (lower half) + (upper half) beta
    over GF(2^4) with the basis 1, alpha, alpha^2, alpha^3, beta a root of x^8 + x^6 + x^5 + x^3 + 1 and
    alpha = beta^238. *)
Definition cam_poly : N := 0x169.
Definition cam_basis : list N :=
  let p i := gf_pow cam_poly (gf_pow cam_poly 2 238) i in
  map p [0; 1; 2; 3] ++ map (fun i => gf_mul cam_poly 2 (p i)) [0; 1; 2; 3].
(** the sum of the elements of a list given by the bits of [x] *)
Definition pick (l : list N) (x : N) : N :=
  fold_left N.lxor (map (fun i => if N.testbit x (N.of_nat i) then nth i l 0 else 0) (seq 0 (length l))) 0.
(** coordinates in the basis *)
Definition cam_coord : N -> N := box_inverse (pick cam_basis).
Definition cam_g (x : N) : N := cam_coord (gf_inv cam_poly (pick cam_basis x)).
(** rows: bits of the argument that make the bits of the value, the most significant first *)
Definition cam_fm : list N := [0x44; 0x82; 0x29; 0x21; 0x12; 0x48; 0x81; 0x14].
Definition cam_hm : list N := [0x4C; 0x44; 0x12; 0x41; 0x22; 0x81; 0x88; 0x24].
Definition camellia_S1 (x : N) : N := N.lxor (mat_vec cam_hm (cam_g (mat_vec cam_fm (N.lxor x 0xC5)))) 0x6E.
Definition camellia_S2 (x : N) : N := rotl 8 (camellia_S1 x) 1.
Definition camellia_S3 (x : N) : N := rotl 8 (camellia_S1 x) 7.
Definition camellia_S4 (x : N) : N := camellia_S1 (rotl 8 x 1).
Definition camellia_boxes : list (N -> N) :=
  [camellia_S1; camellia_S2; camellia_S3; camellia_S4; camellia_S2; camellia_S3; camellia_S4; camellia_S1].
(** the sums of the P-function, bytes counted from 1 *)
Definition camellia_sums : list (list nat) :=
  [[1; 3; 4; 6; 7; 8]; [1; 2; 4; 5; 7; 8]; [1; 2; 3; 5; 6; 8]; [2; 3; 4; 5; 6; 7];
   [1; 2; 6; 7; 8]; [2; 3; 5; 7; 8]; [3; 4; 5; 6; 8]; [1; 4; 5; 6; 7]]%nat.
Definition camellia_P (t : list N) : list N := map (fun s => fold_left N.lxor (map (fun i => nth (i - 1) t 0) s) 0) camellia_sums.
Definition camellia_S (t : list N) : list N := map (fun i => nth i camellia_boxes (fun x => x) (nth i t 0)) (seq 0 8).
Definition camellia_F (x k : N) : N := be_val (camellia_P (camellia_S (be_bytes 8 (N.lxor x k)))).
Definition camellia_FL (x k : N) : N :=
  let x1 := x / 2 ^ 32 in let x2 := x mod 2 ^ 32 in let k1 := k / 2 ^ 32 in let k2 := k mod 2 ^ 32 in
  let x2 := N.lxor x2 (rotl 32 (N.land x1 k1) 1) in
  let x1 := N.lxor x1 (N.lor x2 k2) in
  x1 * 2 ^ 32 + x2.
Definition camellia_FLINV (y k : N) : N :=
  let y1 := y / 2 ^ 32 in let y2 := y mod 2 ^ 32 in let k1 := k / 2 ^ 32 in let k2 := k mod 2 ^ 32 in
  let y1 := N.lxor y1 (N.lor y2 k2) in
  let y2 := N.lxor y2 (rotl 32 (N.land y1 k1) 1) in
  y1 * 2 ^ 32 + y2.

(** ** Keys *)
Definition Sigma : list N :=
  [0xA09E667F3BCC908B; 0xB67AE8584CAA73B2; 0xC6EF372FE94F82BE; 0x54FF53A5F1D36F1C; 0x10E527FADE682D1D; 0xB05688C2B3E6C1FD].
(** two rounds with the constants [i] and [i + 1], on a number of 128 bits *)
Definition camellia_two (i : nat) (x : N) : N :=
  let D1 := x / 2 ^ 64 in let D2 := x mod 2 ^ 64 in
  let D2 := N.lxor D2 (camellia_F D1 (nth i Sigma 0)) in
  let D1 := N.lxor D1 (camellia_F D2 (nth (i + 1) Sigma 0)) in
  D1 * 2 ^ 64 + D2.
(** KL, KR, KA, KB of a key of 16, 24 or 32 bytes *)
Definition camellia_KL (key : list N) : N := be_val (firstn 16 key).
Definition camellia_KR (key : list N) : N :=
  if Nat.eqb (length key) 16 then 0
  else if Nat.eqb (length key) 24 then let x := be_val (skipn 16 key) in x * 2 ^ 64 + (2 ^ 64 - 1 - x)
  else be_val (skipn 16 key).
Definition camellia_KA (key : list N) : N :=
  let x := camellia_two 0 (N.lxor (camellia_KL key) (camellia_KR key)) in
  camellia_two 2 (N.lxor x (camellia_KL key)).
Definition camellia_KB (key : list N) : N := camellia_two 4 (N.lxor (camellia_KA key) (camellia_KR key)).
(** the halves of a rotated block *)
Definition hi64 (x : N * N) : N := rotl 128 (fst x) (snd x) / 2 ^ 64.
Definition lo64 (x : N * N) : N := rotl 128 (fst x) (snd x) mod 2 ^ 64.
Definition both64 (l : list (N * N)) : list N := flat_map (fun x => [hi64 x; lo64 x]) l.
(** kw, k and ke *)
Definition camellia_sub (key : list N) : list N * list N * list N :=
  let KL := camellia_KL key in let KR := camellia_KR key in let KA := camellia_KA key in let KB := camellia_KB key in
  if Nat.eqb (length key) 16 then
    (both64 [(KL, 0); (KA, 111)],
     both64 [(KA, 0); (KL, 15); (KA, 15); (KL, 45)] ++ [hi64 (KA, 45); lo64 (KL, 60)] ++ both64 [(KA, 60); (KL, 94); (KA, 94); (KL, 111)],
     both64 [(KA, 30); (KL, 77)])
  else
    (both64 [(KL, 0); (KB, 111)],
     both64 [(KB, 0); (KR, 15); (KA, 15); (KB, 30); (KL, 45); (KA, 45); (KR, 60); (KB, 60); (KL, 77); (KR, 94); (KA, 94); (KL, 111)],
     both64 [(KR, 30); (KL, 60); (KA, 77)]).

(** ** Encryption *)
Definition camellia_step (k ke : list N) (D : N * N) (i : nat) : N * N :=
  let '(D1, D2) := if (Nat.eqb (i mod 6) 0 && Nat.ltb 0 i)%bool
    then (camellia_FL (fst D) (nth (i / 3 - 2) ke 0), camellia_FLINV (snd D) (nth (i / 3 - 1) ke 0)) else D in
  if Nat.even i then (D1, N.lxor D2 (camellia_F D1 (nth i k 0))) else (N.lxor D1 (camellia_F D2 (nth i k 0)), D2).
Definition camellia_full (key pt : list N) : list N :=
  let '(kw, k, ke) := camellia_sub key in
  let M := be_val pt in
  let n := if Nat.eqb (length key) 16 then 18%nat else 24%nat in
  let '(D1, D2) := fold_left (camellia_step k ke) (seq 0 n) (N.lxor (M / 2 ^ 64) (nth 0 kw 0), N.lxor (M mod 2 ^ 64) (nth 1 kw 0)) in
  be_bytes 8 (N.lxor D2 (nth 2 kw 0)) ++ be_bytes 8 (N.lxor D1 (nth 3 kw 0)).
(** the next key size, with zeros *)
Definition camellia_cipher (key pt : list N) : list N :=
  camellia_full (zero_pad (if Nat.leb (length key) 16 then 16 else if Nat.leb (length key) 24 then 24 else 32) key) pt.
Definition camellia_lengths (key : list N) : Prop := (16 <= length key <= 32)%nat.
