(** The part which lib/hash/{sha2_256,sha2_512,sha1,md5,tiger,whirlpool}.c have in common: byte buffer,
    length counter, padding, output.  The six files repeat the same code with other constants; what differs is
    in [mdp].  Line numbers are those of sha2_256.c, the others are beside their [mdp]. *)
From Coq Require Import NArith Arith List Bool.
From Verif Require Import Lib.Word Lib.Res Model.HashApi.
Import ListNotations.

Record mdp := {
  mp_bs : nat;                                        (* size of buf *)
  mp_lenat : nat;                                     (* offset of the length in the last block *)
  mp_pad : N;                                         (* first padding byte *)
  mp_len : list N -> list N;                          (* the bytes of the length *)
  mp_process : list N -> list N -> res (list N);      (* h, block *)
  mp_out : list N -> nat -> nat -> list N;            (* h, first byte, number of bytes *)
  mp_maxout : nat }.
(** sha2_256.c:30-39.  [md_buf] is the part of buf written so far (writes are at most one past it), reading more
    is [Uninit]; [md_len] has 64 bit limbs, the least significant first. *)
Record md := { md_len : list N; md_h : list N; md_buf : list N; md_i : nat; md_o : bool }.

(** buf[i] = v with room for [cap] bytes *)
Definition bput (cap : nat) (buf : list N) (i : nat) (v : N) : res (list N) :=
  if cap <=? i then Err OobWrite
  else if i <? length buf then Ok (upd buf i v)
  else if i =? length buf then Ok (buf ++ [v]) else Err Uninit.
(** the carry of a length counter: "len[1]++; assert(len[1])" (sha2_512.c:276-281, 291-296, whirlpool.c:916-930);
    with a single limb the assert itself (sha2_256.c:228-229, 239-240) *)
Fixpoint cnt_inc (l : list N) : res (list N) :=
  match l with
  | [] => Err AssertFail
  | a :: t => let a := wadd 64 a 1 in if (a =? 0)%N then let* t := cnt_inc t in Ok (a :: t) else Ok (a :: t)
  end.
(** "len += x; assert(len >= x)" *)
Definition cnt_add (l : list N) (x : N) : res (list N) :=
  match l with
  | [] => Err AssertFail
  | a :: t => let a := wadd 64 a x in if (a <? x)%N then let* t := cnt_inc t in Ok (a :: t) else Ok (a :: t)
  end.

Section Md.
  Variable p : mdp.
  (** buf[i++] = v *)
  Definition md_put (v : N) (s : md) : res md :=
    let* b := bput (mp_bs p) (md_buf s) (md_i s) v in
    Ok {| md_len := md_len s; md_h := md_h s; md_buf := b; md_i := S (md_i s); md_o := md_o s |}.
  (** process(s, s->buf); i = 0 *)
  Definition md_flush (s : md) : res md :=
    if length (md_buf s) <? mp_bs p then Err Uninit
    else let* h := mp_process p (md_h s) (firstn (mp_bs p) (md_buf s)) in
         Ok {| md_len := md_len s; md_h := h; md_buf := md_buf s; md_i := 0; md_o := md_o s |}.
  (** len += n; assert(len >= n) *)
  Definition md_count (n : N) (s : md) : res md :=
    let* l := cnt_add (md_len s) n in
    Ok {| md_len := l; md_h := md_h s; md_buf := md_buf s; md_i := md_i s; md_o := md_o s |}.
  (** sha2_256.c:215-235, one turn of the loop *)
  Definition md_byte (s : md) (b : N) : res md :=
    let* s := md_put b s in
    if md_i s =? mp_bs p then let* s := md_count (N.of_nat (8 * mp_bs p)) s in md_flush s else Ok s.
  Fixpoint md_input (s : md) (l : list N) : res md :=
    match l with [] => Ok s | b :: t => let* s := md_byte s b in md_input s t end.
  (** while(i < n) buf[i++] = 0 *)
  Definition md_zeros (n : nat) (s : md) : res md := mfor (n - md_i s) 0 (fun _ s => md_put 0%N s) s.
  (** sha2_256.c:237-259; the bytes of the length are stored behind each other from lenat on *)
  Definition md_finish (s : md) : res md :=
    let* s := md_count (N.of_nat (8 * md_i s)) s in
    let* s := md_put (mp_pad p) s in
    let* s := if mp_lenat p <? md_i s then let* s := md_zeros (mp_bs p) s in md_flush s else Ok s in
    let* s := md_zeros (mp_lenat p) s in
    let* s := fold_left (fun s b => let* s := s in md_put b s) (mp_len p (md_len s)) (Ok s) in
    let* s := md_flush s in
    Ok {| md_len := md_len s; md_h := md_h s; md_buf := md_buf s; md_i := 0; md_o := true |}.
  (** sha2_256.c:261-268 *)
  Definition md_output (s : md) (len : nat) : res (md * list N) :=
    let* s := if md_o s then Ok s else md_finish s in
    assert_ (md_i s + len <=? mp_maxout p)
      (Ok ({| md_len := md_len s; md_h := md_h s; md_buf := md_buf s; md_i := md_i s + len; md_o := md_o s |},
           mp_out p (md_h s) (md_i s) len)).
  (** the fields set by recreate; [limbs] length words *)
  Definition md_start (limbs : nat) (h buf : list N) : md :=
    {| md_len := repeat 0%N limbs; md_h := h; md_buf := buf; md_i := 0; md_o := false |}.
End Md.

(** A descriptor of these functions.  The object is the number of rounds and the common part; [start] is recreate
    (of an object with this buf), which create and the one-call function run on a new object. *)
Definition rmd := (N * md)%type.
Section Desc.
  Variables (m : N -> mdp) (start : N -> nat -> list N -> res rmd).
  Definition rmd_input (s : rmd) (l : list N) : res rmd := let* x := md_input (m (fst s)) (snd s) l in Ok (fst s, x).
  Definition rmd_output (s : rmd) (n : nat) : res (rmd * list N) :=
    let* q := md_output (m (fst s)) (snd s) n in Ok ((fst s, fst q), snd q).
  (** sha2_256.c:293-315: an object on the stack *)
  Definition rmd_all (r : N) (l : list N) (n : nat) : res (list N) :=
    let* s := start r n [] in let* s := rmd_input s l in let* q := rmd_output s n in Ok (snd q).
  (** the salt is not used (max salt 0) *)
  Definition md_hash (maxout bs : nat) : hash := {|
    hs_st := rmd;
    hs_create r salt n := start r n [];
    hs_recreate s r salt n := start r n (md_buf (snd s));
    hs_input := rmd_input;
    hs_output := rmd_output;
    hs_all r salt := rmd_all r;
    hs_maxout := maxout; hs_blocksize := bs; hs_maxsalt := 0%N |}.
End Desc.
