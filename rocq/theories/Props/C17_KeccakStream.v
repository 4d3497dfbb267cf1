(** C17: the Keccak stream ciphers.  [kst_started p r maxkey key iv s]: [s] comes from create or recreate with these
    arguments.  A session is any sequence of calls with any buffers the rules allow (Spec/Modes.v). *)
From Coq Require Import NArith Arith List Bool.
From Verif Require Import Lib.Res Lib.Bytes Spec.Modes Spec.Keccak Model.Mem Model.HashApi Model.Keccak Model.KeccakStream Proof.KeccakP Proof.KeccakStreamP Proof.StreamDemo.
Import ListNotations.
Local Open Scope N_scope.

Theorem C17_keccak1600_create r key iv : r <= 48 -> bytes_ok key -> bytes_ok iv -> (0 < length key <= 99)%nat -> N.of_nat (length iv) <= 4294967295 ->
  exists s, kst_create hash_keccak1600 99 r key iv = Ok s.
Proof. exact (stream1600_create r key iv). Qed.
(** with default rounds *)
Theorem C17_keccak1600 key iv s0 inp s out : bytes_ok key -> bytes_ok iv -> kst_started keccak1600p 0 99 key iv s0 ->
  session (kst_crypt hash_keccak1600) s0 inp s out ->
  out = xor_ks (sponge_stream keccak_f1600 200 key iv) 0 inp /\ call_safe (kst_crypt hash_keccak1600) 1 s /\ gcall_safe (kst_prng hash_keccak1600) s.
Proof. exact (stream1600_session 0 key iv s0 inp s out (N.le_0_l 48)). Qed.
Theorem C17_keccak1600_prng key iv s0 s out : bytes_ok key -> bytes_ok iv -> kst_started keccak1600p 0 99 key iv s0 ->
  gsession (kst_prng hash_keccak1600) s0 s out ->
  out = map (sponge_stream keccak_f1600 200 key iv) (seq 0 (length out)) /\ call_safe (kst_crypt hash_keccak1600) 1 s /\ gcall_safe (kst_prng hash_keccak1600) s.
Proof. exact (stream1600_gsession 0 key iv s0 s out (N.le_0_l 48)). Qed.
Theorem C17_keccak1600_decrypt r key iv s0 s0' inp s out s' back : r <= 48 -> bytes_ok key -> bytes_ok iv ->
  kst_started keccak1600p r 99 key iv s0 -> kst_started keccak1600p r 99 key iv s0' ->
  session (kst_crypt hash_keccak1600) s0 inp s out -> session (kst_crypt hash_keccak1600) s0' out s' back -> back = inp.
Proof. exact (stream1600_roundtrip r key iv s0 s0' inp s out s' back). Qed.
(** other numbers of rounds *)
Theorem C17_keccak1600_rounds r key iv s0 inp s out : r <= 48 -> bytes_ok key -> bytes_ok iv -> kst_started keccak1600p r 99 key iv s0 ->
  session (kst_crypt hash_keccak1600) s0 inp s out ->
  out = xor_ks (sponge_stream (keccak_bytes 8 (round_constant 64) (N.to_nat (rounds_of 24 r))) 200 key iv) 0 inp /\
  call_safe (kst_crypt hash_keccak1600) 1 s /\ gcall_safe (kst_prng hash_keccak1600) s.
Proof. exact (stream1600_session r key iv s0 inp s out). Qed.
Theorem C17_keccak1600_prng_rounds r key iv s0 s out : r <= 48 -> bytes_ok key -> bytes_ok iv -> kst_started keccak1600p r 99 key iv s0 ->
  gsession (kst_prng hash_keccak1600) s0 s out ->
  out = map (sponge_stream (keccak_bytes 8 (round_constant 64) (N.to_nat (rounds_of 24 r))) 200 key iv) (seq 0 (length out)) /\
  call_safe (kst_crypt hash_keccak1600) 1 s /\ gcall_safe (kst_prng hash_keccak1600) s.
Proof. exact (stream1600_gsession r key iv s0 s out). Qed.

(** Keccak-800, over the permutation of keccak800.c (see C27_keccak800) *)
Theorem C17_keccak800_create r key iv : r <= 40 -> bytes_ok key -> bytes_ok iv -> (0 < length key <= 49)%nat -> N.of_nat (length iv) <= 4294967295 ->
  exists s, kst_create hash_keccak800 49 r key iv = Ok s.
Proof. exact (stream800_create r key iv). Qed.
Theorem C17_keccak800 r key iv s0 inp s out : r <= 40 -> bytes_ok key -> bytes_ok iv -> kst_started keccak800p r 49 key iv s0 ->
  session (kst_crypt hash_keccak800) s0 inp s out ->
  out = xor_ks (sponge_stream (keccak_bytes 4 folded_constant (N.to_nat (rounds_of 20 r))) 100 key iv) 0 inp /\
  call_safe (kst_crypt hash_keccak800) 1 s /\ gcall_safe (kst_prng hash_keccak800) s.
Proof. exact (stream800_session r key iv s0 inp s out). Qed.
Theorem C17_keccak800_prng r key iv s0 s out : r <= 40 -> bytes_ok key -> bytes_ok iv -> kst_started keccak800p r 49 key iv s0 ->
  gsession (kst_prng hash_keccak800) s0 s out ->
  out = map (sponge_stream (keccak_bytes 4 folded_constant (N.to_nat (rounds_of 20 r))) 100 key iv) (seq 0 (length out)) /\
  call_safe (kst_crypt hash_keccak800) 1 s /\ gcall_safe (kst_prng hash_keccak800) s.
Proof. exact (stream800_gsession r key iv s0 s out). Qed.
Theorem C17_keccak800_decrypt r key iv s0 s0' inp s out s' back : r <= 40 -> bytes_ok key -> bytes_ok iv ->
  kst_started keccak800p r 49 key iv s0 -> kst_started keccak800p r 49 key iv s0' ->
  session (kst_crypt hash_keccak800) s0 inp s out -> session (kst_crypt hash_keccak800) s0' out s' back -> back = inp.
Proof. exact (stream800_roundtrip r key iv s0 s0' inp s out s' back). Qed.
Print Assumptions C17_keccak1600_create. Print Assumptions C17_keccak1600. Print Assumptions C17_keccak1600_prng. Print Assumptions C17_keccak1600_decrypt.
Print Assumptions C17_keccak1600_rounds. Print Assumptions C17_keccak1600_prng_rounds. Print Assumptions C17_keccak800_create. Print Assumptions C17_keccak800.
Print Assumptions C17_keccak800_prng. Print Assumptions C17_keccak800_decrypt.
Example C17_session : exists s0 s out, kst_create hash_keccak1600 99 0 [1; 2; 3] [4; 5] = Ok s0 /\
  session (kst_crypt hash_keccak1600) s0 [0; 1; 2; 7; 8] s out /\ length out = 5%nat.
Proof. apply two_calls_session. vm_compute. reflexivity. Qed.
