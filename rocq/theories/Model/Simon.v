(** lib/block/simon32.c, simon64.c, simon128.c: one definition with parameters. *)
From Coq Require Import NArith Arith List Bool.
From Verif Require Import Lib.Word Lib.Res Model.LoadStore Model.BlockApi Lib.Bytes.
Import ListNotations.
Local Open Scope N_scope.

Record simon_par := {
  si_w : N;
  si_k : nat;            (* bytes per word *)
  si_ld : list N -> nat -> N;
  si_st : N -> list N;
  si_key : list N -> nat -> list N;
  si_min : nat;          (* least number of key words *)
  si_z : nat -> N;       (* constant for a number of key words *)
  si_def : nat -> N;     (* default rounds for (len + bytes - 1) / bytes *)
  si_maxkey : nat;
}.

(** simon32.c:102-110: always 4 key words, constant in line 109, 32 rounds (125) *)
Definition simon32 : simon_par :=
  {| si_w := 16; si_k := 2; si_ld := load16l; si_st := store16l; si_key := key16l;
     si_min := 4; si_z := fun _ => 0x19C3522FB386A45F; si_def := fun _ => 32; si_maxkey := 8 |}.
(** simon64.c:93-97, 107-108, 136 *)
Definition simon64 : simon_par :=
  {| si_w := 32; si_k := 4; si_ld := load32l; si_st := store32l; si_key := key32l;
     si_min := 3; si_z := fun m => nth (m - 3) [0x3369F885192C0EF5; 0x3C2CE51207A635DB] 0;
     si_def := fun n => 36 + 2 * N.of_nat n; si_maxkey := 16 |}.
(** simon128.c:93-98, 108-109, 137-145 *)
Definition simon128 : simon_par :=
  {| si_w := 64; si_k := 8; si_ld := load64l; si_st := store64l; si_key := key64l;
     si_min := 2; si_z := fun m => nth (m - 2) [0x3369F885192C0EF5; 0x3C2CE51207A635DB; 0x3DC94C3A046D678B] 0;
     si_def := fun n => match n with 3%nat => 69 | 4%nat => 72 | _ => 68 end; si_maxkey := 32 |}.

(** simon32.c:28-33 *)
Record simon := { simon_rounds : N; simon_ks : list N }.

Section Simon.
  Variable p : simon_par.
  Let w := si_w p.

  (** simon32.c:35 *)
  Definition simon_F (x : N) : N :=
    N.lxor (N.land (rol w x 1) (rol w x 8)) (rol w x 2).

  (** simon32.c:47-62: [left] rounds remain; the result is the pair of words stored
      at (higher address, lower address) *)
  Fixpoint simon_enc_loop (ks : list N) (left i : nat) (a b : N) : res (N * N) :=
    match left with
    | O => Ok (a, b)
    | S l1 =>
        let* k0 := get ks i in
        let b := N.lxor b (N.lxor (simon_F a) k0) in
        match l1 with
        | O => Ok (b, a)
        | S l2 =>
            let* k1 := get ks (S i) in
            simon_enc_loop ks l2 (S (S i)) (N.lxor a (N.lxor (simon_F b) k1)) b
        end
    end.

  (** simon32.c:75-90 *)
  Fixpoint simon_dec_loop (ks : list N) (i : nat) (a b : N) : res (N * N) :=
    match i with
    | O => Ok (a, b)
    | S i1 =>
        let* k1 := get ks i1 in
        let a := N.lxor a (N.lxor (simon_F b) k1) in
        match i1 with
        | O => Ok (b, a)
        | S i2 =>
            let* k0 := get ks i2 in
            simon_dec_loop ks i2 a (N.lxor b (N.lxor (simon_F a) k0))
        end
    end.

  Definition simon_swap (x : N * N) : N * N := (snd x, fst x).
  (** simon32.c:44-45: (a, b) *)
  Definition simon_load (l : list N) : N * N := simon_swap (ld2 (k := si_k p) (ld := si_ld p) l).
  Definition simon_store (x : N * N) : list N := st2 (st := si_st p) (simon_swap x).

  (** simon32.c:37-63 *)
  Definition simon_encrypt (s : simon) (pt : list N) : res (list N) :=
    let* y := simon_enc_loop (simon_ks s) (N.to_nat (simon_rounds s)) 0
                (fst (simon_load pt)) (snd (simon_load pt)) in
    Ok (simon_store y).
  (** simon32.c:65-91 *)
  Definition simon_decrypt (s : simon) (ct : list N) : res (list N) :=
    let* y := simon_dec_loop (simon_ks s) (N.to_nat (simon_rounds s))
                (fst (simon_load ct)) (snd (simon_load ct)) in
    Ok (simon_store y).

  (** number of key words (simon64.c:107-108, simon128.c:108-109, simon32.c: 4) *)
  Definition simon_words (key : list N) : nat := Nat.div (length key + (si_k p - 1)) (si_k p).
  Definition simon_m (key : list N) : nat := Nat.max (si_min p) (simon_words key).

  (** simon64.c:117-120, simon32.c:107-109 *)
  Definition simon_next (m : nat) (ks : list N) (i : nat) : N :=
    let t := ror w (nth (i - 1) ks 0) 3 in
    let t := if Nat.eqb m 4 then N.lxor t (nth (i - 3) ks 0) else t in
    let t := N.lxor t (N.lxor (N.lxor (ror w t 1) (wnot w (nth (i - m) ks 0))) 3) in
    N.lxor t (N.land (N.shiftr (si_z p m) (N.of_nat (Nat.modulo (i - m) 62))) 1).

  (** simon64.c:99-124 *)
  Definition simon_setup (r : N) (key : list N) : simon :=
    let m := simon_m key in
    {| simon_rounds := r;
       simon_ks := pfor (N.to_nat r - m) m (fun i ks => ks ++ [simon_next m ks i]) (si_key p key m) |}.

  (** simon32.c:125, simon64.c:136, simon128.c:137-145 *)
  Definition simon_r (r : N) (key : list N) : N :=
    if r =? 0 then si_def p (simon_words key) else r.

  (** simon32.c:115-137: at least [m] words are written whatever [r] is *)
  Definition simon_create (r : N) (key : list N) : res simon :=
    assert_ (key_len_ok (si_maxkey p) key)
      (let r := simon_r r key in
       fits (N.max r (N.of_nat (simon_m key))) (mask 32 (r * N.of_nat (si_k p)) / N.of_nat (si_k p))
         (Ok (simon_setup r key))).

  (** simon32.c:145-166 *)
  Definition simon_recreate (s : simon) (r : N) (key : list N) : res simon :=
    assert_ (key_len_ok (si_maxkey p) key)
      (let r := simon_r r key in
       if r =? simon_rounds s then Ok (simon_setup r key) else Err UseAfterFree).
End Simon.
