(** lib/block/speck32.c, speck64.c, speck128.c.  The three files differ in the word
    type, the rotation counts, the byte order helpers and the default rounds; they
    are one definition with these as parameters.  Line numbers agree in all three. *)
From Coq Require Import NArith Arith List.
From Verif Require Import Lib.Word Lib.Res Model.LoadStore Model.BlockApi Lib.Bytes.
Import ListNotations.
Local Open Scope N_scope.

Record speck_par := {
  sp_w : N;            (* word width *)
  sp_k : nat;          (* bytes per word *)
  sp_ra : N;           (* ROR count in line 37 *)
  sp_rb : N;           (* ROL count in line 38 *)
  sp_ld : list N -> nat -> N;
  sp_st : N -> list N;
  sp_key : list N -> nat -> list N;
  sp_def : N -> N;     (* default rounds from the number of key words, line 115 *)
  sp_maxkey : nat;
}.

Definition speck32 : speck_par :=
  {| sp_w := 16; sp_k := 2; sp_ra := 7; sp_rb := 2; sp_ld := load16l; sp_st := store16l;
     sp_key := key16l; sp_def := fun _ => 22; sp_maxkey := 8 |}.
Definition speck64 : speck_par :=
  {| sp_w := 32; sp_k := 4; sp_ra := 8; sp_rb := 3; sp_ld := load32l; sp_st := store32l;
     sp_key := key32l; sp_def := fun n => 23 + n; sp_maxkey := 16 |}.
Definition speck128 : speck_par :=
  {| sp_w := 64; sp_k := 8; sp_ra := 8; sp_rb := 3; sp_ld := load64l; sp_st := store64l;
     sp_key := key64l; sp_def := fun n => 30 + n; sp_maxkey := 32 |}.

(** lines 28-33 *)
Record speck := { speck_rounds : N; speck_ks : list N }.

Section Speck.
  Variable p : speck_par.
  Let w := sp_w p.

  (** lines 35-39; [(K)] may be an unsigned int (line 98), the result is stored in
      a word, so it is truncated *)
  Definition speck_R (k : N) (x : N * N) : N * N :=
    let a := N.lxor (wadd w (ror w (fst x) (sp_ra p)) (snd x)) (mask w k) in
    (a, N.lxor (rol w (snd x) (sp_rb p)) a).

  (** lines 41-45 *)
  Definition speck_IR (k : N) (x : N * N) : N * N :=
    let b := ror w (N.lxor (snd x) (fst x)) (sp_rb p) in
    (rol w (wsub w (N.lxor (fst x) (mask w k)) b) (sp_ra p), b).

  (** lines 47-62; the pair is (a, b), a at the higher address *)
  Definition speck_enc_words (s : speck) (x : N * N) : res (N * N) :=
    mfor (N.to_nat (speck_rounds s)) 0 (fun i y => let* k := get (speck_ks s) i in Ok (speck_R k y)) x.

  (** lines 64-79 *)
  Definition speck_dec_words (s : speck) (x : N * N) : res (N * N) :=
    mford (N.to_nat (speck_rounds s)) (fun i y => let* k := get (speck_ks s) i in Ok (speck_IR k y)) x.

  Definition speck_swap (x : N * N) : N * N := (snd x, fst x).
  Definition speck_load (l : list N) : N * N := speck_swap (ld2 (k := sp_k p) (ld := sp_ld p) l).
  Definition speck_store (x : N * N) : list N := st2 (st := sp_st p) (speck_swap x).

  Definition speck_encrypt (s : speck) (pt : list N) : res (list N) :=
    let* y := speck_enc_words s (speck_load pt) in Ok (speck_store y).
  Definition speck_decrypt (s : speck) (ct : list N) : res (list N) :=
    let* y := speck_dec_words s (speck_load ct) in Ok (speck_store y).

  (** lines 95-100: state is the array [k] of 4 words and the schedule so far (in
      reverse).  [i % m] with [m = 0] is a division by zero.  [a <= m <= 3]. *)
  Definition speck_sched_step (m : nat) (i : nat) (st : list N * list N) : res (list N * list N) :=
    let '(k, out) := st in
    if Nat.eqb m 0 then Err DivZero else
    let a := S (Nat.modulo i m) in
    let '(ka, k0) := speck_R (N.of_nat i) (nth a k 0, nth 0 k 0) in
    Ok (upd (upd k a ka) 0 k0, k0 :: out).

  (** number of key words, [(len + bytes - 1) / bytes] *)
  Definition speck_words (key : list N) : nat := Nat.div (length key + (sp_k p - 1)) (sp_k p).

  (** lines 81-103 *)
  Definition speck_setup (r : N) (key : list N) : res speck :=
    let k := sp_key p key 4 in
    let m := (speck_words key - 1)%nat in
    let* '(_, out) := mfor (N.to_nat r - 1) 0 (speck_sched_step m) (k, [nth 0 k 0]) in
    Ok {| speck_rounds := r; speck_ks := rev out |}.

  (** lines 115 and 143 *)
  Definition speck_r (r : N) (key : list N) : N :=
    if r =? 0 then sp_def p (N.of_nat (speck_words key)) else r.

  (** lines 105-127: [r] words in [(r * bytes) mod 2^32] bytes *)
  Definition speck_create (r : N) (key : list N) : res speck :=
    assert_ (key_len_ok (sp_maxkey p) key)
      (let r := speck_r r key in
       fits r (mask 32 (r * N.of_nat (sp_k p)) / N.of_nat (sp_k p)) (speck_setup r key)).

  (** lines 135-156 *)
  Definition speck_recreate (s : speck) (r : N) (key : list N) : res speck :=
    assert_ (key_len_ok (sp_maxkey p) key)
      (let r := speck_r r key in
       if r =? speck_rounds s then speck_setup r key else Err UseAfterFree).
End Speck.
