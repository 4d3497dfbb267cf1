(** The byte buffer of lib/hash/{blake256,blake512,blake2s,blake2b,skein256,skein512,skein1024}.c:
    "buf[i++] = in[k]; if(i == bs) { ...; i = 0; }".  [bb_a] is what the block function changes.  [bb_buf] is the part
    of buf written so far (writes are at most one past it), reading more is [Uninit]. *)
From Coq Require Import NArith Arith List Bool.
From Verif Require Import Lib.Res Model.Md.
Import ListNotations.

Record bb (A : Type) := { bb_a : A; bb_buf : list N; bb_i : nat }.
Arguments bb_a {A}. Arguments bb_buf {A}. Arguments bb_i {A}.

Section Buf.
  Context {A : Type}.
  Variable bs : nat.
  (** buf[i++] = v *)
  Definition bb_put (v : N) (s : bb A) : res (bb A) :=
    let* b := bput bs (bb_buf s) (bb_i s) v in Ok {| bb_a := bb_a s; bb_buf := b; bb_i := S (bb_i s) |}.
  (** while(i < n) buf[i++] = 0 *)
  Definition bb_zeros (n : nat) (s : bb A) : res (bb A) := mfor (n - bb_i s) 0 (fun _ s => bb_put 0%N s) s.
  (** bytes stored at [off], i is not changed *)
  Definition bb_store (off : nat) (bytes : list N) (s : bb A) : res (bb A) :=
    let* q := fold_left (fun q b => let* q := q in let* m := bput bs (fst q) (snd q) b in Ok (m, S (snd q))) bytes (Ok (bb_buf s, off)) in
    Ok {| bb_a := bb_a s; bb_buf := fst q; bb_i := bb_i s |}.
  (** the block function on buf; i = 0 *)
  Definition bb_flush (f : A -> list N -> res A) (s : bb A) : res (bb A) :=
    if length (bb_buf s) <? bs then Err Uninit
    else let* a := f (bb_a s) (firstn bs (bb_buf s)) in Ok {| bb_a := a; bb_buf := bb_buf s; bb_i := 0 |}.
  (** one turn of the input loop, and the loop *)
  Definition bb_byte (f : A -> list N -> res A) (s : bb A) (b : N) : res (bb A) :=
    let* s := bb_put b s in if bb_i s =? bs then bb_flush f s else Ok s.
  Fixpoint bb_input (f : A -> list N -> res A) (s : bb A) (l : list N) : res (bb A) :=
    match l with [] => Ok s | b :: t => let* s := bb_byte f s b in bb_input f s t end.
End Buf.
