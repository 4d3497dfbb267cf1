(** Published ciphers made of S-boxes and linear maps over GF(2^8): Khazad, Anubis and ARIA. *)
From Coq Require Import NArith Arith List Bool.
From Verif Require Import Lib.Res Lib.Bytes Spec.Words Spec.Gf Spec.Affine.
Import ListNotations.
Local Open Scope N_scope.

(** * Barreto, Rijmen, "The Khazad legacy-level block cipher" and "The Anubis block cipher" (tweaked versions) *)
(** the S-box of both, made of two boxes of four bits in three layers *)
Definition mini_P : list N := [0x3; 0xF; 0xE; 0x0; 0x5; 0x4; 0xB; 0xC; 0xD; 0xA; 0x9; 0x6; 0x7; 0x8; 0x2; 0x1].
Definition mini_Q : list N := [0x9; 0xE; 0x5; 0x6; 0xA; 0x2; 0x3; 0xC; 0xF; 0x0; 0x4; 0xD; 0x7; 0xB; 0x1; 0x8].
Definition mini (t : list N) (x : N) : N := nth (N.to_nat x) t 0.
(** the upper and the lower two bits of both halves are gathered *)
Definition mini_mix (u l : N) : N * N := ((u / 4) * 4 + l / 4, (u mod 4) * 4 + l mod 4).
Definition khazad_S (x : N) : N :=
  let '(u, l) := mini_mix (mini mini_P (x / 16)) (mini mini_Q (x mod 16)) in
  let '(u, l) := mini_mix (mini mini_Q u) (mini mini_P l) in
  mini mini_P u * 16 + mini mini_Q l.
(** x^8 + x^4 + x^3 + x^2 + 1 *)
Definition khazad_poly : N := 0x11D.
(** the matrix with entry [h i xor j] in row i and column j *)
Definition hadamard (h : list N) : list (list N) :=
  map (fun i => map (fun j => nth (N.to_nat (N.lxor (N.of_nat i) (N.of_nat j))) h 0) (seq 0 (length h))) (seq 0 (length h)).

Definition khazad_gamma (a : list N) : list N := map khazad_S a.
Definition khazad_theta (a : list N) : list N := gf_mat khazad_poly (hadamard [1; 3; 4; 5; 6; 8; 11; 7]) a.
Definition khazad_rho (k a : list N) : list N := xor_list (khazad_theta (khazad_gamma a)) k.
Definition khazad_const (r : nat) : list N := map (fun j => khazad_S (N.of_nat (8 * r + j))) (seq 0 8).
(** the keys K(-2), K(-1) and [n] more *)
Definition khazad_keys (n : nat) (key : list N) : list (list N) :=
  fold_left (fun k r => k ++ [xor_list (khazad_rho (khazad_const r) (nth (r + 1) k [])) (nth r k [])]) (seq 0 n)
    [slice 0 8 key; slice 8 8 key].
(** a short key is padded with zeros *)
Definition khazad_cipher (key pt : list N) : list N :=
  let K r := nth (r + 2) (khazad_keys 9 (zero_pad 16 key)) [] in
  let a := fold_left (fun a r => khazad_rho (K r) a) (seq 1 7) (xor_list pt (K 0%nat)) in
  xor_list (khazad_gamma a) (K 8%nat).

(** ** Anubis: the state has four rows of four bytes, the key state [N] rows of four bytes *)
Definition rows_of (n : nat) (l : list N) : list (list N) := map (fun i => slice (4 * i) 4 l) (seq 0 n).
Definition entry (a : list (list N)) (i j : nat) : N := nth j (nth i a []) 0.
Definition anubis_gamma (a : list (list N)) : list (list N) := map (map khazad_S) a.
Definition anubis_tau (a : list (list N)) : list (list N) :=
  map (fun i => map (fun j => entry a j i) (seq 0 4)) (seq 0 4).
Definition anubis_theta (a : list (list N)) : list (list N) := map (gf_mat khazad_poly (hadamard [1; 2; 4; 6])) a.
Definition anubis_sigma (k a : list (list N)) : list (list N) := map (fun p => xor_list (snd p) (fst p)) (combine k a).
(** column [j] is shifted down by [j] places *)
Definition anubis_pi (a : list (list N)) : list (list N) :=
  let n := length a in map (fun i => map (fun j => entry a ((i + 3 * n - j) mod n) j) (seq 0 4)) (seq 0 n).
(** the Vandermonde matrix of 1, 2, 6 and 8 times the key state *)
Definition anubis_omega (a : list (list N)) : list (list N) :=
  map (fun v => map (fun j => gf_row khazad_poly (map (fun i => gf_pow khazad_poly v (N.of_nat i)) (seq 0 (length a)))
    (map (fun row => nth j row 0) a)) (seq 0 4)) [1; 2; 6; 8].
(** the constant of step [r], from 1 on, is in the first row *)
Definition anubis_const (n r : nat) : list (list N) :=
  map (fun j => khazad_S (N.of_nat (4 * (r - 1) + j))) (seq 0 4) :: repeat [0; 0; 0; 0] (n - 1).
Definition anubis_kappa (a : list (list N)) (r : nat) : list (list N) :=
  anubis_sigma (anubis_const (length a) r) (anubis_theta (anubis_pi (anubis_gamma a))).
(** the key of round [r] *)
Definition anubis_key (n : nat) (key : list N) (r : nat) : list (list N) :=
  anubis_tau (anubis_omega (anubis_gamma (fold_left anubis_kappa (seq 1 r) (rows_of n key)))).
(** The key has [n] rows, rounded up with zero bytes; 8 + n rounds, not less than 12. *)
Definition anubis_cipher (key pt : list N) : list N :=
  let n := ((length key + 3) / 4)%nat in
  let R := Nat.max 12 (8 + n) in
  let K := anubis_key n (zero_pad (4 * n) key) in
  let a := fold_left (fun a r => anubis_sigma (K r) (anubis_theta (anubis_tau (anubis_gamma a)))) (seq 1 (R - 1))
    (anubis_sigma (K 0%nat) (rows_of 4 pt)) in
  concat (anubis_sigma (K R) (anubis_tau (anubis_gamma a))).

(** * RFC 5794, ARIA *)
Definition aria_poly : N := 0x11B.
(** B x^-1 + 63 and C x^247 + E2 *)
Definition aria_S1 (x : N) : N :=
  N.lxor (mat_vec [0xF8; 0x7C; 0x3E; 0x1F; 0x8F; 0xC7; 0xE3; 0xF1] (gf_inv aria_poly x)) 0x63.
Definition aria_S2 (x : N) : N :=
  N.lxor (mat_vec [0xCB; 0xBA; 0x81; 0x34; 0xB9; 0xEB; 0xBC; 0x7A] (gf_pow aria_poly x 247)) 0xE2.
(** the byte that a box takes to [y] *)
Definition box_inverse (S : N -> N) (y : N) : N :=
  match find (fun x => S x =? y) (map N.of_nat (seq 0 256)) with Some x => x | None => 0 end.
Definition aria_boxes_odd : list (N -> N) := [aria_S1; aria_S2; box_inverse aria_S1; box_inverse aria_S2].
Definition aria_boxes_even : list (N -> N) := [box_inverse aria_S1; box_inverse aria_S2; aria_S1; aria_S2].
(** byte [i] goes through box [i] modulo 4 *)
Definition aria_SL (b : list (N -> N)) (x : list N) : list N :=
  map (fun i => nth (i mod 4) b (fun x => x) (nth i x 0)) (seq 0 16).
Definition aria_sums : list (list nat) :=
  [[3; 4; 6; 8; 9; 13; 14]; [2; 5; 7; 8; 9; 12; 15]; [1; 4; 6; 10; 11; 12; 15]; [0; 5; 7; 10; 11; 13; 14];
   [0; 2; 5; 8; 11; 14; 15]; [1; 3; 4; 9; 10; 14; 15]; [0; 2; 7; 9; 10; 12; 13]; [1; 3; 6; 8; 11; 12; 13];
   [0; 1; 4; 7; 10; 13; 15]; [0; 1; 5; 6; 11; 12; 14]; [2; 3; 5; 6; 8; 13; 15]; [2; 3; 4; 7; 9; 12; 14];
   [1; 2; 6; 7; 9; 11; 12]; [0; 3; 6; 7; 8; 10; 13]; [0; 3; 4; 5; 9; 11; 14]; [1; 2; 4; 5; 8; 10; 15]]%nat.
Definition aria_A (x : list N) : list N := map (fun t => fold_left N.lxor (map (fun i => nth i x 0) t) 0) aria_sums.
Definition aria_FO (d k : list N) : list N := aria_A (aria_SL aria_boxes_odd (xor_list d k)).
Definition aria_FE (d k : list N) : list N := aria_A (aria_SL aria_boxes_even (xor_list d k)).
Definition aria_C : list N :=
  [0x517CC1B727220A94FE13ABE8FA9A6EE0; 0x6DB14ACC9E21C820FF28B1D5EF5DE2B0; 0xDB92371D2126E9700324977504E8C90E].
(** W0 .. W3 of a key of 16, 24 or 32 bytes *)
Definition aria_W (key : list N) : list (list N) :=
  let CK i := be_bytes 16 (nth ((length key / 8 - 2 + i) mod 3) aria_C 0) in
  let MK := zero_pad 32 key in
  let W0 := slice 0 16 MK in
  let W1 := xor_list (aria_FO W0 (CK 0%nat)) (slice 16 16 MK) in
  let W2 := xor_list (aria_FE W1 (CK 1%nat)) W0 in
  let W3 := xor_list (aria_FO W2 (CK 2%nat)) W1 in
  [W0; W1; W2; W3].
(** ek1 is number 0 *)
Definition aria_ek (W : list (list N)) (i : nat) : list N :=
  xor_list (nth (i mod 4) W [])
    (be_bytes 16 (rotr 128 (be_val (nth ((i + 1) mod 4) W [])) (nth (i / 4) [19; 31; 67; 97; 109] 0))).
(** 12, 14 or 16 rounds *)
Definition aria_full (key pt : list N) : list N :=
  let ek := aria_ek (aria_W key) in
  let n := (8 + length key / 4)%nat in
  let p := fold_left (fun p i => if Nat.even i then aria_FO p (ek i) else aria_FE p (ek i)) (seq 0 (n - 1)) pt in
  xor_list (aria_SL aria_boxes_even (xor_list p (ek (n - 1)%nat))) (ek n).
(** the next of the three key sizes, with zeros *)
Definition aria_size (n : nat) : nat := if Nat.leb n 16 then 16 else if Nat.leb n 24 then 24 else 32.
Definition aria_cipher (key pt : list N) : list N := aria_full (zero_pad (aria_size (length key)) key) pt.
(** the key lengths that the library takes to the next size (17 .. 20 and 25 .. 28 bytes are no keys of ARIA) *)
Definition aria_lengths (key : list N) : Prop :=
  (1 <= length key <= 16 \/ 21 <= length key <= 24 \/ 29 <= length key <= 32)%nat.
