(** Damage to one block: [M'] has the length of [M] and differs from it, but only inside one block of [bs] bytes (the last one may be short). *)
From Coq Require Import NArith Arith List Bool.
From Verif Require Import Lib.Res Lib.Bytes Spec.Modes Spec.Mac Spec.Ae Model.MacApi Model.Eax.
Import ListNotations.

Definition one_block_changed (bs : nat) (M M' : list N) : Prop :=
  length M' = length M /\ M' <> M /\ exists i, forall j, j <> i -> block bs j M' = block bs j M.

(** Tags of [bs] bytes from the object [s], for every splitting of the messages: the tags of the two messages differ, and the
    verification of the damaged message refuses the tag of the other. *)
Definition mac_notices (d : mac) (bs : nat) (s : res (mc_st d)) : Prop :=
  forall parts parts', Forall bytes_ok parts -> Forall bytes_ok parts' -> one_block_changed bs (concat parts) (concat parts') ->
  exists tag tag', tag_of d s parts [bs] = Ok tag /\ tag_of d s parts' [bs] = Ok tag' /\ length tag = bs /\ tag <> tag' /\
    verify_of d s parts' tag = Ok 0%N.
(** The same for authenticated encryption: damage to the ciphertext or to the header, not to both. *)
Definition ae_notices (d : ae) (bs : nat) (s0 : ae_st d) : Prop :=
  forall hdr pt s ct hdr' ct' s' pt', ae_session (ae_encrypt d) (ae_header d) s0 hdr pt s ct -> ae_session (ae_decrypt d) (ae_header d) s0 hdr' ct' s' pt' ->
  (hdr' = hdr /\ one_block_changed bs ct ct' \/ one_block_changed bs hdr hdr' /\ ct' = ct) ->
  exists s1 s2 tag, ae_tag d s bs = Ok (s1, tag) /\ length tag = bs /\ ae_verify d s' tag = Ok (s2, 0%N).
