(** FIPS 197 (AES), with the block size as a parameter as in the Rijndael proposal.  Words and columns are lists of
    four bytes, the state is a list of [nb] columns. *)
From Coq Require Import NArith Arith List Bool.
From Verif Require Import Lib.Bytes Spec.Gf Spec.Words.
Import ListNotations.
Local Open Scope N_scope.

(** 4.2: x^8 + x^4 + x^3 + x + 1 *)
Definition aes_mul (x y : N) : N := gf_mul 0x11B x y.
(** the inverse, 0 for 0: x^254 *)
Definition aes_inv (x : N) : N :=
  let sq y := aes_mul y y in
  let x2 := sq x in let x4 := sq x2 in let x8 := sq x4 in let x16 := sq x8 in let x32 := sq x16 in let x64 := sq x32 in let x128 := sq x64 in
  aes_mul x128 (aes_mul x64 (aes_mul x32 (aes_mul x16 (aes_mul x8 (aes_mul x4 x2))))).
Definition rot8 (x n : N) : N := rotl 8 x n.
(** 5.1.1, 5.3.2 *)
Definition aes_sub (x : N) : N :=
  let b := aes_inv x in N.lxor (N.lxor (N.lxor (N.lxor (N.lxor b (rot8 b 1)) (rot8 b 2)) (rot8 b 3)) (rot8 b 4)) 0x63.
Definition aes_unsub (y : N) : N := aes_inv (N.lxor (N.lxor (N.lxor (rot8 y 1) (rot8 y 3)) (rot8 y 6)) 0x05).
(** memoised *)
Definition aes_sbox : list N := map (fun i => aes_sub (N.of_nat i)) (seq 0 256).
Definition aes_isbox : list N := map (fun i => aes_unsub (N.of_nat i)) (seq 0 256).
Definition sb (x : N) : N := nth (N.to_nat x) aes_sbox 0.
Definition isb (x : N) : N := nth (N.to_nat x) aes_isbox 0.

Definition bxor (a b : list N) : list N := map (fun q => N.lxor (fst q) (snd q)) (combine a b).
(** 5.2: key expansion *)
Definition sub_word (w : list N) : list N := map sb w.
Definition rot_word (w : list N) : list N := match w with [a; b; c; d] => [b; c; d; a] | _ => w end.
Definition aes_rcon (i : nat) : list N := [Nat.iter (i - 1) (xtime 0x11B) 1; 0; 0; 0].
Definition next_word (nk : nat) (ws : list (list N)) : list N :=
  let i := length ws in
  let temp := nth (i - 1) ws [] in
  let temp := if (i mod nk =? 0)%nat then bxor (sub_word (rot_word temp)) (aes_rcon (i / nk))
              else if (6 <? nk)%nat && (i mod nk =? 4)%nat then sub_word temp else temp in
  bxor (nth (i - nk) ws []) temp.
Definition key_words (nk : nat) (key : list N) : list (list N) := map (fun i => slice (4 * i) 4 key) (seq 0 nk).
Definition expand (nk n : nat) (key : list N) : list (list N) := Nat.iter (n - nk) (fun ws => ws ++ [next_word nk ws]) (key_words nk key).

Section State.
  Variable nb : nat.
  (** by how many columns a row is shifted: 1, 2, 3; for blocks of 8 words 1, 3, 4 *)
  Definition shift (row : nat) : nat := if (nb =? 8)%nat then nth row [0; 1; 3; 4]%nat 0%nat else row.
  Definition cell (s : list (list N)) (row col : nat) : N := nth row (nth col s []) 0.
  Definition sub_bytes (s : list (list N)) : list (list N) := map (map sb) s.
  Definition shift_rows (s : list (list N)) : list (list N) :=
    map (fun c => map (fun r => cell s r ((c + shift r) mod nb)) (seq 0 4)) (seq 0 nb).
  (** 5.1.3: the matrix and its product with a column *)
  Definition mat (m : list (list N)) (c : list N) : list N :=
    map (fun row => fold_left N.lxor (map (fun q => aes_mul (fst q) (snd q)) (combine row c)) 0) m.
  Definition mix_m : list (list N) := [[2; 3; 1; 1]; [1; 2; 3; 1]; [1; 1; 2; 3]; [3; 1; 1; 2]].
  Definition unmix_m : list (list N) := [[14; 11; 13; 9]; [9; 14; 11; 13]; [13; 9; 14; 11]; [11; 13; 9; 14]].
  Definition mix_columns (s : list (list N)) : list (list N) := map (mat mix_m) s.
  Definition add_round_key (s k : list (list N)) : list (list N) := map (fun q => bxor (fst q) (snd q)) (combine s k).
  (** 5.3 *)
  Definition inv_sub_bytes (s : list (list N)) : list (list N) := map (map isb) s.
  Definition inv_shift_rows (s : list (list N)) : list (list N) :=
    map (fun c => map (fun r => cell s r ((c + nb - shift r) mod nb)) (seq 0 4)) (seq 0 nb).
  Definition inv_mix_columns (s : list (list N)) : list (list N) := map (mat unmix_m) s.

  (** round key number [i] *)
  Definition round_key (w : list (list N)) (i : nat) : list (list N) := firstn nb (skipn (nb * i) w).
  (** figure 5 *)
  Definition cipher (nr : nat) (w : list (list N)) (s : list (list N)) : list (list N) :=
    let s := add_round_key s (round_key w 0) in
    let s := fold_left (fun s i => add_round_key (mix_columns (shift_rows (sub_bytes s))) (round_key w i)) (seq 1 (nr - 1)) s in
    add_round_key (shift_rows (sub_bytes s)) (round_key w nr).
  (** figure 12 *)
  Definition inv_cipher (nr : nat) (w : list (list N)) (s : list (list N)) : list (list N) :=
    let s := add_round_key s (round_key w nr) in
    let s := fold_left (fun s i => inv_mix_columns (add_round_key (inv_sub_bytes (inv_shift_rows s)) (round_key w i))) (rev (seq 1 (nr - 1))) s in
    add_round_key (inv_sub_bytes (inv_shift_rows s)) (round_key w 0).
  Definition columns (l : list N) : list (list N) := map (fun c => slice (4 * c) 4 l) (seq 0 nb).
  (** [nk] words of key, [nr] rounds *)
  Definition rijndael_enc (nk nr : nat) (key pt : list N) : list N := concat (cipher nr (expand nk (nb * (nr + 1)) key) (columns pt)).
  Definition rijndael_dec (nk nr : nat) (key ct : list N) : list N := concat (inv_cipher nr (expand nk (nb * (nr + 1)) key) (columns ct)).
End State.
(** figure 4: Nk = 4, 6, 8 and Nr = 10, 12, 14 *)
Definition aes_enc (key pt : list N) : list N := let nk := Nat.div (length key) 4 in rijndael_enc 4 nk (nk + 6) key pt.
Definition aes_dec (key ct : list N) : list N := let nk := Nat.div (length key) 4 in rijndael_dec 4 nk (nk + 6) key ct.
