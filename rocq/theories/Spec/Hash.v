(** What it means that an object of the hash interface computes a function, and the padding and iteration
    of the Merkle-Damgard hashes (FIPS 180-4 section 5, RFC 1321 section 3). *)
From Coq Require Import NArith Arith List Bool.
From Verif Require Import Lib.Res Lib.Bytes Spec.Modes Model.HashApi.
Import ListNotations.

(** feed a list of chunks, read a list of pieces *)
Fixpoint feed (d : hash) (s : hs_st d) (parts : list (list N)) : res (hs_st d) :=
  match parts with [] => Ok s | x :: t => let* s := hash_input d s x in feed d s t end.
Fixpoint drain (d : hash) (s : hs_st d) (lens : list nat) : res (list N) :=
  match lens with
  | [] => Ok []
  | n :: t => let* p := hash_output d s n in let* o := drain d (fst p) t in Ok (snd p ++ o)
  end.
Definition digest (d : hash) (s : res (hs_st d)) (parts : list (list N)) (lens : list nat) : res (list N) :=
  let* s := s in let* s := feed d s parts in drain d s lens.

(** With these arguments the hash computes [H] on the messages of an accepted length: for a new object, an object
    made new by recreate whatever state it was in, and the function for everything at once; for every
    splitting of message and digest.  [cap] is the number of bytes that can be read. *)
Definition computes (d : hash) (r : N) (salt : list N) (n cap : nat) (okm : nat -> Prop) (H : list N -> list N) : Prop :=
  forall parts, Forall bytes_ok parts -> okm (length (concat parts)) ->
  (forall lens, list_sum lens <= cap ->
    digest d (hash_create d r salt n) parts lens = Ok (firstn (list_sum lens) (H (concat parts))) /\
    forall s, digest d (hash_recreate d s r salt n) parts lens = Ok (firstn (list_sum lens) (H (concat parts)))) /\
  hash_all d r salt (concat parts) n = Ok (firstn n (H (concat parts))).

(** the whole blocks of a message *)
Definition blocks (bs : nat) (l : list N) : list (list N) := map (fun i => block bs i l) (seq 0 (length l / bs)).
(** Merkle-Damgard iteration *)
Definition iterate (bs : nat) (compress : list N -> list N -> list N) (h l : list N) : list N :=
  fold_left compress (blocks bs l) h.
(** message, first byte, zeros up to the last [lb] bytes of a block, length in bits *)
Definition md_pad (bs lb : nat) (first : N) (enc : nat -> N -> list N) (l : list N) : list N :=
  l ++ [first] ++ repeat 0%N ((2 * bs - lb - 1 - length l mod bs) mod bs) ++ enc lb (8 * N.of_nat (length l))%N.

(** The digest must be read by one call. *)
Definition computes_once (d : hash) (r : N) (salt : list N) (n : nat) (okm : nat -> Prop) (H : list N -> list N) : Prop :=
  forall parts, Forall bytes_ok parts -> okm (length (concat parts)) ->
  (forall k, k <= n ->
    digest d (hash_create d r salt n) parts [k] = Ok (firstn k (H (concat parts))) /\
    forall s, digest d (hash_recreate d s r salt n) parts [k] = Ok (firstn k (H (concat parts)))) /\
  hash_all d r salt (concat parts) n = Ok (firstn n (H (concat parts))).
(** Input splitting: one call with everything gives the same bytes. *)
Definition input_split_free (d : hash) (r : N) (salt : list N) (n cap : nat) (okm : nat -> Prop) : Prop :=
  forall parts lens, Forall bytes_ok parts -> okm (length (concat parts)) -> list_sum lens <= cap ->
  exists o, digest d (hash_create d r salt n) [concat parts] lens = Ok o /\ digest d (hash_create d r salt n) parts lens = Ok o.
(** Output splitting: one call for everything gives the same bytes. *)
Definition output_split_free (d : hash) (r : N) (salt : list N) (n cap : nat) (okm : nat -> Prop) : Prop :=
  forall parts lens, Forall bytes_ok parts -> okm (length (concat parts)) -> list_sum lens <= cap ->
  exists o,
    digest d (hash_create d r salt n) parts [list_sum lens] = Ok o /\ digest d (hash_create d r salt n) parts lens = Ok o.
(** An object made new by recreate, whatever was done with it before, and the function for everything at once *)
Definition reuse_free (d : hash) (r : N) (salt : list N) (n cap : nat) (okm : nat -> Prop) : Prop :=
  forall parts, Forall bytes_ok parts -> okm (length (concat parts)) ->
  (forall lens s, list_sum lens <= cap -> exists o,
    digest d (hash_create d r salt n) parts lens = Ok o /\ digest d (hash_recreate d s r salt n) parts lens = Ok o) /\
  exists o, digest d (hash_create d r salt n) parts [n] = Ok o /\ hash_all d r salt (concat parts) n = Ok o.
