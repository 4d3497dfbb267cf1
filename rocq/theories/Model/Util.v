(** lib/memory.c and lib/pkcs7.c on the caller's memory. *)
From Coq Require Import NArith Arith List Bool.
From Verif Require Import Lib.Word Lib.Res Model.Mem.
Import ListNotations.
Local Open Scope N_scope.

(** memory.c:21-26 kripto_memory_wipe: [while(len--) *x++ = 0] *)
Definition memory_wipe (m : mem) (dst len : nat) : mem :=
  pfor len 0 (fun i m => wr1 m (dst + i) 0) m.

(** memory.c:28-40 kripto_memory_equals: [x |= a[i] ^ b[i]] on an unsigned char, result [!x] *)
Definition memory_equals (m : mem) (a b len : nat) : N :=
  let x := pfor len 0 (fun i x => byte (N.lor x (N.lxor (m (a + i)%nat) (m (b + i)%nat)))) 0 in
  if x =? 0 then 1 else 0.

(** pkcs7.c:22-41 kripto_pkcs7_add(buf, len, pad, maxlen): [pad] is a 32 bit unsigned int, [len] and [maxlen]
    are 64 bit size_t; returns the new length and the memory.  Simplification: the caller's buffer is not
    bounded, the writes are compared with [maxlen] in the properties. *)
Definition pkcs7_add (m : mem) (buf : nat) (len pad maxlen : N) : N * mem :=
  let pad := mask 32 (wsub 64 pad (N.land len (wsub 32 pad 1))) in
  if maxlen <? wadd 64 pad len then (0, m)
  else (wadd 64 len pad,
        pfor (N.to_nat pad) 0 (fun i m => wr1 m (buf + N.to_nat len + i) (byte pad)) m).

(** pkcs7.c:43-49 kripto_pkcs7_rem(buf, len); with [len = 0] the byte before the buffer is read *)
Definition pkcs7_rem (m : mem) (buf : nat) (len : N) : res N :=
  if len =? 0 then Err OobRead
  else let b := m (buf + N.to_nat len - 1)%nat in
       Ok (if b <? len then len - b else len).
