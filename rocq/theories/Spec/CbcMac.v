(** MACs from CBC: CMAC (NIST SP 800-38B) and XCBC (RFC 3566), over a function [F] on blocks of [bs] bytes. *)
From Coq Require Import NArith Arith List Bool.
From Verif Require Import Lib.Bytes Spec.Words Spec.Modes.
Import ListNotations.
Local Open Scope N_scope.

Section CbcMac.
  Variables (bs : nat) (F : list N -> list N).
  (** the chaining value after the first [q] blocks *)
  Definition cbc_value (q : nat) (M : list N) : list N :=
    fold_left (fun c i => F (xor_bytes c (block bs i M))) (seq 0 q) (repeat 0 bs).
  (** The last block, of 1 .. bs bytes (none for the empty message), is combined with [Ka] when it is whole; otherwise a one bit
      and zeros are put after it and it is combined with [Kb]. *)
  Definition cbc_mac (Ka Kb M : list N) : list N :=
    let q := ((length M - 1) / bs)%nat in
    let last := skipn (q * bs) M in
    let x := if (length last =? bs)%nat then xor_bytes last Ka else xor_bytes (zero_pad bs (last ++ [0x80])) Kb in
    F (xor_bytes (cbc_value q M) x).
  (** the product by x in GF(2^(8 bs)) with the polynomial x^(8 bs) + [R] *)
  Definition gf_double (R : N) (l : list N) : list N :=
    let v := 2 * be_val l in
    be_bytes bs (N.lxor (v mod 256 ^ N.of_nat bs) (if 256 ^ N.of_nat bs <=? v then R else 0)).
  Definition cmac (R : N) (M : list N) : list N :=
    let K1 := gf_double R (F (repeat 0 bs)) in cbc_mac K1 (gf_double R K1) M.
End CbcMac.
(** RFC 3566 section 4 for a keyed function: K1 keys the chain *)
Definition xcbc_mac (bs : nat) (E : list N -> list N -> list N) (key M : list N) : list N :=
  cbc_mac bs (E (E key (repeat 1 bs))) (E key (repeat 2 bs)) (E key (repeat 3 bs)) M.

(** R for a block of [bs] bytes: the low terms of the lexically first irreducible polynomial with the fewest terms (SP 800-38B
    section 5.3 for 8 and 16; Seroussi, HPL-98-135 for the others) *)
Definition poly_of (exps : list N) : N := fold_right (fun e v => N.lxor (2 ^ e) v) 0 exps.
Definition cmac_poly (bs : nat) : option N :=
  match bs with
  | 4%nat => Some (poly_of [7; 3; 2; 0])
  | 6%nat => Some (poly_of [5; 3; 2; 0])
  | 8%nat => Some (poly_of [4; 3; 1; 0])
  | 12%nat => Some (poly_of [10; 9; 6; 0])
  | 16%nat => Some (poly_of [7; 2; 1; 0])
  | 32%nat => Some (poly_of [10; 5; 2; 0])
  | 64%nat => Some (poly_of [8; 5; 2; 0])
  | 128%nat => Some (poly_of [19; 6; 1; 0])
  | _ => None
  end.
