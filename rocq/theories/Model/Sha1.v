(** lib/hash/sha1.c. *)
From Coq Require Import NArith Arith List Bool.
From Verif Require Import Lib.Word Lib.Res Model.LoadStore Model.HashApi Model.Md.
Import ListNotations.
Local Open Scope N_scope.

(** sha1.c:40-42 *)
Definition s1_f0 (x y z : N) : N := N.lxor z (N.land x (N.lxor y z)).
Definition s1_f1 (x y z : N) : N := N.lxor (N.lxor x y) z.
Definition s1_f2 (x y z : N) : N := N.lor (N.land x y) (N.land z (N.lor x y)).
(** sha1.c:44-66: function and constant of G0, G1, G2, G3 *)
Definition s1_g (g : nat) : (N -> N -> N -> N) * N :=
  match g with
  | O => (s1_f0, 0x5A827999)
  | 1%nat => (s1_f1, 0x6ED9EBA1)
  | 2%nat => (s1_f2, 0x8F1BBCDC)
  | _ => (s1_f1, 0xCA62C1D6)
  end.
(** sha1.c:44-48: G with register [j] in the place of A, the others following cyclically *)
Definition s1_round (g j : nat) (w : N) (x : list N) : list N :=
  let at_ k := nth ((j + k) mod 5)%nat x 0 in
  let (f, c) := s1_g g in
  let e := wadd 32 (at_ 4%nat) (wadd 32 (wadd 32 (wadd 32 (rol 32 (at_ 0%nat) 5) (f (at_ 1%nat) (at_ 2%nat) (at_ 3%nat))) w) c) in
  upd (upd x ((j + 4) mod 5) e) ((j + 1) mod 5) (rol 32 (at_ 1%nat) 30).
(** the register in the place of A in call [t]: a, e, d, c, b *)
Definition s1_first (t : nat) : nat := ((5 - t mod 5) mod 5)%nat.
(** sha1.c:103-122: w[80], written from the beginning on *)
Definition s1_w (data : list N) : list N :=
  pfor 64 16 (fun i w => let at_ k := nth (i - k)%nat w 0 in
                         w ++ [rol 32 (N.lxor (N.lxor (N.lxor (at_ 3%nat) (at_ 8%nat)) (at_ 14%nat)) (at_ 16%nat)) 1])
    (map (fun i => load32b data (4 * i)) (seq 0 16)).
(** sha1.c:93-166; four loops of 20 calls *)
Definition s1_process (h data : list N) : res (list N) :=
  let w := s1_w data in
  let x := pfor 80 0 (fun i x => s1_round (i / 20) (s1_first i) (nth i w 0) x) h in
  Ok (map (fun q => wadd 32 (fst q) (snd q)) (combine h x)).

Definition sha1_iv : list N := [0x67452301; 0xEFCDAB89; 0x98BADCFE; 0x10325476; 0xC3D2E1F0].
(** sha1.c: input 168-188, finish 190-212, output 214-221 *)
Definition sha1_md : mdp := {|
  mp_bs := 64; mp_lenat := 56; mp_pad := 0x80; mp_len l := flat_map store64b (rev l);
  mp_process := s1_process; mp_out h i n := store32b_array h i n; mp_maxout := 20 |}.
(** sha1.c:68-91; no rounds in the object *)
Definition sha1_start (r : N) (n : nat) (buf : list N) : res rmd := assert_ (r =? 0) (Ok (0, md_start 1 sha1_iv buf)).
(** sha1.c:223-283 *)
Definition hash_sha1 : hash := md_hash (fun _ => sha1_md) sha1_start 20 64.
