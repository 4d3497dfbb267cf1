(** Published definition of TRAX-L-17: Beierle, Biryukov, Cardoso dos Santos, Großschädl, Perrin, Udovenko, Velichkov, Wang, "Alzette: a 64-bit
    ARX-box" (CRYPTO 2020), the tweakable block cipher with blocks and keys of 256 bits and tweaks of 128 bits.  A state is four branches
    of two words. *)
From Coq Require Import NArith Arith List Bool.
From Verif Require Import Lib.Word Lib.Res Lib.Bytes Model.Sparx Spec.Words Spec.Block Spec.Arx Spec.Pub2.
Import ListNotations.
Local Open Scope N_scope.

(** the eight constants, from the fraction of e *)
Definition trax_consts : list N := crax_c ++ [0x4F7C7B57; 0xCFBFA1C8; 0xC2B3293D].
Definition trax_const (i : nat) : N := word trax_consts (i mod 8).
(** the linear map on two halves: (a, b) becomes (b, a + b) *)
Definition trax_lin (x : N) : N := (x mod 2 ^ 16) * 2 ^ 16 + N.lxor (x / 2 ^ 16) (x mod 2 ^ 16).
(** the key of the next step: every other word is changed, then all words are rotated by one place *)
Definition trax_update (s : nat) (k : list N) : list N :=
  let w := word k in
  let k := [add32 (w 0%nat) (add32 (w 1%nat) (trax_const (2 * s))); w 1%nat;
            N.lxor (w 2%nat) (N.lxor (w 3%nat) (N.of_nat s)); w 3%nat;
            add32 (w 4%nat) (add32 (w 5%nat) (trax_const (2 * s + 1))); w 5%nat;
            N.lxor (w 6%nat) (N.lxor (w 7%nat) ((N.of_nat s * 2 ^ 16) mod 2 ^ 32)); w 7%nat] in
  skipn 1 k ++ firstn 1 k.
Definition branch (v : list (N * N)) (b : nat) : N * N := nth b v (0, 0).
(** words added to the branches, two each *)
Definition trax_add (k : list N) (v : list (N * N)) : list (N * N) :=
  map (fun b => (N.lxor (fst (branch v b)) (word k (2 * b)), N.lxor (snd (branch v b)) (word k (2 * b + 1)))) (seq 0 4).
Definition trax_boxes (s : nat) (v : list (N * N)) : list (N * N) := map (fun b => alzette_box (trax_const (4 * s + b)) (branch v b)) (seq 0 4).
Definition trax_layer (v : list (N * N)) : list (N * N) :=
  let x b := fst (branch v b) in let y b := snd (branch v b) in
  let tx := trax_lin (N.lxor (x 2%nat) (x 3%nat)) in
  let ty := trax_lin (N.lxor (y 2%nat) (y 3%nat)) in
  [branch v 3; branch v 2; (N.lxor (x 0%nat) ty, N.lxor (y 0%nat) tx); (N.lxor (x 1%nat) ty, N.lxor (y 1%nat) tx)].
(** the tweak enters every second step, in the first two branches *)
Definition trax_step (tw : list N) (kv : list N * list (N * N)) (s : nat) : list N * list (N * N) :=
  let '(k, v) := kv in
  let v := if (s mod 2 =? 1)%nat then trax_add tw v else v in
  (trax_update s k, trax_layer (trax_boxes s (trax_add k v))).
Definition trax_pairs (w : list N) : list (N * N) := map (fun b => (word w (2 * b), word w (2 * b + 1))) (seq 0 4).
Definition trax_l_cipher (key tweak pt : list N) : list N :=
  let k := le_words 4 8 (zero_pad 32 key) in
  let tw := le_words 4 4 (zero_pad 16 tweak) in
  let '(k, v) := fold_left (trax_step tw) (seq 0 17) (k, trax_pairs (le_words 4 8 pt)) in
  le_string 4 (flat_map (fun p => [fst p; snd p]) (trax_add k v)).

(** The objects are the cipher [E]: key of 1 to 32 bytes, tweak of at most 16 set after it, default number of steps *)
Definition is_trax_cipher (p : trax_par) (E : list N -> list N -> list N -> list N) : Prop :=
  forall key tweak, key_ok (4 * tr_n p) key -> bytes_ok tweak -> (List.length tweak <= 2 * tr_n p)%nat ->
    exists s s', trax_create p 0 key = Ok s /\ trax_set_tweak p s tweak = Ok s' /\
      forall pt, blk (4 * tr_n p) pt -> trax_encrypt p s' pt = Ok (E key tweak pt) /\ trax_decrypt p s' (E key tweak pt) = Ok pt.
