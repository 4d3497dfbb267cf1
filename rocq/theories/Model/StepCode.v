(** Functions of the library as programs of Spec/Steps.v, statement by statement.  Simplifications: the buffers of one call do not overlap;
    a struct member and a pointed-to array are arrays; size_t is 64 bits and unsigned int 32; a volatile local of memory.c is a variable. *)
From Coq Require Import NArith Arith List Bool.
From Verif Require Import Lib.Word Spec.Steps Model.Speck.
Import ListNotations.
Local Open Scope nat_scope.

Definition all (l : list stmt) : stmt := fold_right Seq Skip l.
Definition lit (n : nat) : expr := Lit (N.of_nat n).

(** memory.c:21-26: [while(len--) *x++ = 0].  Variables: 0 len, 1 x.  Array: 0 dst.  The last [len--] has no effect after it. *)
Definition wipe_code : stmt :=
  Seq (Set_ 1 (Lit 0)) (While (Var 0) (all [Set_ 0 (Bin (Sub 64) (Var 0) (Lit 1)); Put 0 (Var 1) (Lit 0); Set_ 1 (Bin (Add 64) (Var 1) (Lit 1))])).
(** memory.c:28-40.  Variables: 0 x, 1 i, 2 len, 3 the result.  Arrays: 0 a, 1 b. *)
Definition equals_code : stmt := all [Set_ 0 (Lit 0); Set_ 1 (Lit 0);
  While (Bin Lt (Var 1) (Var 2))
    (all [Set_ 0 (Un (Mask 8) (Bin Or (Var 0) (Bin Xor (At 0 (Var 1)) (At 1 (Var 1))))); Set_ 1 (Bin (Add 64) (Var 1) (Lit 1))]);
  Set_ 3 (Un Not (Var 0))].

(** loadstore.h:27-37, 122-134, 225-241: a word of [k] bytes at [o], the lowest byte first *)
Definition ldl (a o k : nat) : expr :=
  fold_left (fun e j => Bin Or e (Un (Shl 64 (N.of_nat (8 * j))) (At a (lit (o + j))))) (seq 1 (k - 1)) (At a (lit o)).
(** loadstore.h:75-83, 174-184, 285-299 *)
Definition stl (x a o k : nat) : list stmt := map (fun j => Put a (lit (o + j)) (Un (Mask 8) (Un (Shr (N.of_nat (8 * j))) (Var x)))) (seq 0 k).

(** speck32.c, speck64.c, speck128.c.  Variables: 0 a, 1 b, 2 i, 3 s->rounds.  Arrays: 0 s->k, 1 in, 2 out. *)
Section Speck.
  Variable p : speck_par.
  Let w := sp_w p. Let k := sp_k p.
  (** lines 35-39 *)
  Definition spk_R : list stmt := [Set_ 0 (Bin Xor (Bin (Add w) (Un (Ror w (sp_ra p)) (Var 0)) (Var 1)) (Un (Mask w) (At 0 (Var 2))));
    Set_ 1 (Bin Xor (Un (Rol w (sp_rb p)) (Var 1)) (Var 0))].
  (** lines 41-45 *)
  Definition spk_IR : list stmt := [Set_ 1 (Un (Ror w (sp_rb p)) (Bin Xor (Var 1) (Var 0)));
    Set_ 0 (Un (Rol w (sp_ra p)) (Bin (Sub w) (Bin Xor (Var 0) (Un (Mask w) (At 0 (Var 2)))) (Var 1)))].
  (** lines 47-62 *)
  Definition spk_enc : stmt := all ([Set_ 0 (ldl 1 k k); Set_ 1 (ldl 1 0 k); Set_ 2 (Lit 0);
    While (Bin Lt (Var 2) (Var 3)) (all (spk_R ++ [Set_ 2 (Bin (Add 32) (Var 2) (Lit 1))]))] ++ stl 0 2 k k ++ stl 1 2 0 k).
  (** lines 64-79: [for(i = s->rounds; i--;)] *)
  Definition spk_dec : stmt := all ([Set_ 0 (ldl 1 k k); Set_ 1 (ldl 1 0 k); Set_ 2 (Var 3);
    While (Var 2) (all (Set_ 2 (Bin (Sub 32) (Var 2) (Lit 1)) :: spk_IR))] ++ stl 0 2 k k ++ stl 1 2 0 k).
End Speck.

(** chacha.c and salsa20.c.  Variables: 0-15 x00-x15, 16 i, 17 r.  Arrays: 0 x, 1 out. *)
(** chacha.c:38-44 *)
Definition cc_qr_code (q : nat * nat * nat * nat) : stmt := let '(a, b, c, d) := q in
  let add x y := Set_ x (Bin (Add 32) (Var x) (Var y)) in let rot x y n := Set_ x (Un (Rol 32 n) (Bin Xor (Var x) (Var y))) in
  all [add a b; rot d a 16%N; add c d; rot b c 12%N; add a b; rot d a 8%N; add c d; rot b c 7%N].
(** salsa20.c:38-44 *)
Definition s20_qr_code (q : nat * nat * nat * nat) : stmt := let '(a, b, c, d) := q in
  let mix x y z n := Set_ x (Bin Xor (Var x) (Un (Rol 32 n) (Bin (Add 32) (Var y) (Var z)))) in
  all [mix b a d 7%N; mix c b a 9%N; mix d c b 13%N; mix a d c 18%N].
(** chacha.c:46-118 and salsa20.c:46-118 with the index lists of their two half loops *)
Definition core_code (qr : nat * nat * nat * nat -> stmt) (ev od : list (nat * nat * nat * nat)) : stmt :=
  all (map (fun j => Set_ j (At 0 (lit j))) (seq 0 16) ++ [Set_ 16 (Lit 0);
    While (Bin Lt (Var 16) (Var 17)) (all (map qr ev ++ [Set_ 16 (Bin (Add 32) (Var 16) (Lit 1)); If (Bin Eq (Var 16) (Var 17)) Break Skip] ++
      map qr od ++ [Set_ 16 (Bin (Add 32) (Var 16) (Lit 1))]))] ++
    map (fun j => Set_ j (Bin (Add 32) (Var j) (At 0 (lit j)))) (seq 0 16) ++ flat_map (fun j => stl j 1 (4 * j) 4) (seq 0 16)).

(** rc4.c:70-82.  Variables: 0 s->i, 1 s->j, 2 t, 3 the result.  Array: 0 s->p. *)
Definition rc4_code : stmt := all [Set_ 0 (Bin (Add 8) (Var 0) (Lit 1)); Set_ 1 (Bin (Add 8) (Var 1) (At 0 (Var 0)));
  Set_ 2 (At 0 (Var 0)); Put 0 (Var 0) (At 0 (Var 1)); Put 0 (Var 1) (Var 2);
  Set_ 3 (At 0 (Un (Mask 8) (Bin (Add 32) (At 0 (Var 0)) (At 0 (Var 1)))))].
(** idea.c:40-50.  Variables: 0 a, 1 b, 2 p, 3 the result. *)
Definition mul_code : stmt := all [Set_ 2 (Bin (Mul 32) (Var 0) (Var 1));
  If (Var 2) (all [Set_ 2 (Bin (Sub 32) (Un (Mask 16) (Var 2)) (Un (Shr 16) (Var 2)));
      Set_ 3 (Un (Mask 16) (Bin (Sub 32) (Un (Mask 16) (Var 2)) (Un (Shr 16) (Var 2))))])
    (Set_ 3 (Un (Mask 16) (Bin (Sub 32) (Bin (Sub 32) (Lit 1) (Var 0)) (Var 1))))].
(** pkcs7.c:43-49.  Variables: 0 len, 1 the result.  Array: 0 buf. *)
Definition rem_code : stmt := If (Bin Lt (At 0 (Bin (Sub 64) (Var 0) (Lit 1))) (Var 0))
  (Set_ 1 (Bin (Sub 64) (Var 0) (At 0 (Bin (Sub 64) (Var 0) (Lit 1))))) (Set_ 1 (Var 0)).

(** rijndael.c.  Variables: 0-3 x0-x3, 4-7 t0-t3, 8 i, 9 s->rounds.  Arrays: 0 s->k, 1-4 te0-te3, 5 te4, 6 pt, 7 ct. *)
(** loadstore.h:136-148, 186-196 *)
Definition ldb (a o : nat) : expr :=
  Bin Or (Bin Or (Bin Or (At a (lit (o + 3))) (Un (Shl 64 8) (At a (lit (o + 2))))) (Un (Shl 64 16) (At a (lit (o + 1))))) (Un (Shl 64 24) (At a (lit o))).
Definition stb (x a o : nat) : list stmt :=
  [Put a (lit o) (Un (Mask 8) (Un (Shr 24) (Var x))); Put a (lit (o + 1)) (Un (Mask 8) (Un (Shr 16) (Var x)));
   Put a (lit (o + 2)) (Un (Mask 8) (Un (Shr 8) (Var x))); Put a (lit (o + 3)) (Un (Mask 8) (Var x))].
(** rijndael.c:682-688 *)
Definition aes_E (x0 x1 x2 x3 : nat) : expr :=
  Bin Xor (Bin Xor (Bin Xor (At 1 (Un (Shr 24) (Var x0))) (At 2 (Un (Mask 8) (Un (Shr 16) (Var x1))))) (At 3 (Un (Mask 8) (Un (Shr 8) (Var x2))))) (At 4 (Un (Mask 8) (Var x3))).
(** rijndael.c:690-696 *)
Definition aes_EL (x0 x1 x2 x3 : nat) : expr :=
  Bin Or (Bin Or (Bin Or (Un (Shl 32 24) (At 5 (Un (Shr 24) (Var x0)))) (Un (Shl 32 16) (At 5 (Un (Mask 8) (Un (Shr 16) (Var x1))))))
    (Un (Shl 32 8) (At 5 (Un (Mask 8) (Un (Shr 8) (Var x2)))))) (At 5 (Un (Mask 8) (Var x3))).
Definition aes_word (t : nat) (e : expr) : list stmt := [Set_ t (Bin Xor e (At 0 (Var 8))); Set_ 8 (Bin (Add 32) (Var 8) (Lit 1))].
(** rijndael.c:815-823 *)
Definition aes_round : list stmt := aes_word 4 (aes_E 0 1 2 3) ++ aes_word 5 (aes_E 1 2 3 0) ++ aes_word 6 (aes_E 2 3 0 1) ++ aes_word 7 (aes_E 3 0 1 2) ++
  [Set_ 0 (Var 4); Set_ 1 (Var 5); Set_ 2 (Var 6); Set_ 3 (Var 7)].
(** rijndael.c:807-813 *)
Definition aes_start : list stmt := map (fun j => Set_ j (Bin Xor (ldb 6 (4 * j)) (At 0 (lit j)))) (seq 0 4) ++ [Set_ 8 (Lit 4)].
Definition aes_cond : expr := Bin Lt (Var 8) (Un (Shl 32 2) (Var 9)).
(** rijndael.c:827-836; the last i has no ++ *)
Definition aes_last : list stmt := aes_word 4 (aes_EL 0 1 2 3) ++ aes_word 5 (aes_EL 1 2 3 0) ++ aes_word 6 (aes_EL 2 3 0 1) ++
  [Set_ 7 (Bin Xor (aes_EL 3 0 1 2) (At 0 (Var 8)))].
(** rijndael.c:790-836 *)
Definition aes_code : stmt := all (aes_start ++ [While aes_cond (all aes_round)] ++ aes_last ++ stb 4 7 0 ++ stb 5 7 4 ++ stb 6 7 8 ++ stb 7 7 12).
