(** include/kripto/loadstore.h: byte order conversion (portable branches; the
    KRIPTO_LITTLE_ENDIAN / KRIPTO_BIG_ENDIAN macros are not set by build.sh).
    A [const void *] argument is a byte list and an offset into it. *)
From Coq Require Import NArith Arith List.
From Verif Require Import Lib.Word Lib.Res.
Import ListNotations.
Local Open Scope N_scope.

Definition b_ (l : list N) (o : nat) : N := nth o l 0.

(** loadstore.h:27-37 *)
Definition load16l (l : list N) (o : nat) : N :=
  N.lor (b_ l o) (N.shiftl (b_ l (o+1)) 8).
(** loadstore.h:39-49 *)
Definition load16b (l : list N) (o : nat) : N :=
  N.lor (b_ l (o+1)) (N.shiftl (b_ l o) 8).
(** loadstore.h:75-83 *)
Definition store16l (x : N) : list N := [byte x; byte (N.shiftr x 8)].
(** loadstore.h:85-93 *)
Definition store16b (x : N) : list N := [byte (N.shiftr x 8); byte x].

(** loadstore.h:122-134 *)
Definition load32l (l : list N) (o : nat) : N :=
  N.lor (N.lor (N.lor (b_ l o) (N.shiftl (b_ l (o+1)) 8))
    (N.shiftl (b_ l (o+2)) 16)) (N.shiftl (b_ l (o+3)) 24).
(** loadstore.h:136-148 *)
Definition load32b (l : list N) (o : nat) : N :=
  N.lor (N.lor (N.lor (b_ l (o+3)) (N.shiftl (b_ l (o+2)) 8))
    (N.shiftl (b_ l (o+1)) 16)) (N.shiftl (b_ l o) 24).
(** loadstore.h:174-184 *)
Definition store32l (x : N) : list N :=
  [byte x; byte (N.shiftr x 8); byte (N.shiftr x 16); byte (N.shiftr x 24)].
(** loadstore.h:186-196 *)
Definition store32b (x : N) : list N :=
  [byte (N.shiftr x 24); byte (N.shiftr x 16); byte (N.shiftr x 8); byte x].

(** loadstore.h:225-241 *)
Definition load64l (l : list N) (o : nat) : N :=
  N.lor (N.lor (N.lor (N.lor (N.lor (N.lor (N.lor
    (b_ l o) (N.shiftl (b_ l (o+1)) 8))
    (N.shiftl (b_ l (o+2)) 16)) (N.shiftl (b_ l (o+3)) 24))
    (N.shiftl (b_ l (o+4)) 32)) (N.shiftl (b_ l (o+5)) 40))
    (N.shiftl (b_ l (o+6)) 48)) (N.shiftl (b_ l (o+7)) 56).
(** loadstore.h:243-259 *)
Definition load64b (l : list N) (o : nat) : N :=
  N.lor (N.lor (N.lor (N.lor (N.lor (N.lor (N.lor
    (b_ l (o+7)) (N.shiftl (b_ l (o+6)) 8))
    (N.shiftl (b_ l (o+5)) 16)) (N.shiftl (b_ l (o+4)) 24))
    (N.shiftl (b_ l (o+3)) 32)) (N.shiftl (b_ l (o+2)) 40))
    (N.shiftl (b_ l (o+1)) 48)) (N.shiftl (b_ l o) 56).
(** loadstore.h:285-299 *)
Definition store64l (x : N) : list N :=
  [byte x; byte (N.shiftr x 8); byte (N.shiftr x 16); byte (N.shiftr x 24);
   byte (N.shiftr x 32); byte (N.shiftr x 40); byte (N.shiftr x 48); byte (N.shiftr x 56)].
(** loadstore.h:301-315 *)
Definition store64b (x : N) : list N :=
  [byte (N.shiftr x 56); byte (N.shiftr x 48); byte (N.shiftr x 40); byte (N.shiftr x 32);
   byte (N.shiftr x 24); byte (N.shiftr x 16); byte (N.shiftr x 8); byte x].

(** The ARRAY loads: [dst[i / k] |= src[i] << sh i], byte after byte.  [k] bytes
    per word; the caller's array has room for [bytes] bytes at every use. *)
Definition load_array (k : nat) (sh : nat -> N) (src dst : list N) (bytes : nat) : list N :=
  pfor bytes 0 (fun i d =>
    upd d (i / k) (N.lor (nth (i / k) d 0) (N.shiftl (b_ src i) (sh i)))) dst.

Definition sh_l (k i : nat) : N := N.of_nat (8 * (i mod k)).
Definition sh_b (k i : nat) : N := N.of_nat (8 * (k - 1) - 8 * (i mod k)).

(** loadstore.h:51-61 *)
Definition load16l_array := load_array 2 (sh_l 2).
(** loadstore.h:63-73 *)
Definition load16b_array := load_array 2 (sh_b 2).
(** loadstore.h:150-160 *)
Definition load32l_array := load_array 4 (sh_l 4).
(** loadstore.h:162-172 *)
Definition load32b_array := load_array 4 (sh_b 4).
(** loadstore.h:261-271 *)
Definition load64l_array := load_array 8 (sh_l 8).
(** loadstore.h:273-283 *)
Definition load64b_array := load_array 8 (sh_b 8).

(** The ARRAY stores: [dst[i] = (uint8_t)(src[b / k] >> sh b)], [b = src_byte + i]. *)
Definition store_array (k : nat) (sh : nat -> N) (src : list N) (src_byte bytes : nat) : list N :=
  map (fun b => byte (N.shiftr (nth (b / k) src 0) (sh b))) (seq src_byte bytes).

(** loadstore.h:95-105 *)
Definition store16l_array := store_array 2 (sh_l 2).
(** loadstore.h:107-117 *)
Definition store16b_array := store_array 2 (sh_b 2).
(** loadstore.h:198-208 *)
Definition store32l_array := store_array 4 (sh_l 4).
(** loadstore.h:210-220 *)
Definition store32b_array := store_array 4 (sh_b 4).
(** loadstore.h:317-327 *)
Definition store64l_array := store_array 8 (sh_l 8).
(** loadstore.h:329-339 *)
Definition store64b_array := store_array 8 (sh_b 8).

(** memset(dst, 0, ...) followed by LOADxx_ARRAY(key, dst, key_len): the way the
    ciphers load a key into [n] words. *)
Definition key16l (key : list N) (n : nat) := load16l_array key (repeat 0 n) (length key).
Definition key16b (key : list N) (n : nat) := load16b_array key (repeat 0 n) (length key).
Definition key32l (key : list N) (n : nat) := load32l_array key (repeat 0 n) (length key).
Definition key32b (key : list N) (n : nat) := load32b_array key (repeat 0 n) (length key).
Definition key64l (key : list N) (n : nat) := load64l_array key (repeat 0 n) (length key).
Definition key64b (key : list N) (n : nat) := load64b_array key (repeat 0 n) (length key).

(** Word vectors at the start of a buffer. *)
Definition loads (ld : list N -> nat -> N) (k n : nat) (l : list N) : list N :=
  map (fun i => ld l (k * i)%nat) (seq 0 n).
Definition stores (st : N -> list N) (ws : list N) : list N := flat_map st ws.
