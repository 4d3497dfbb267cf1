From Coq Require Import NArith List.
From Verif Require Import Lib.Word Lib.Bytes Model.Table.

Lemma tab8_inw w t x : words_ok w t -> inw w (tab8 t x).
Proof. intros H. now apply words_nth. Qed.
