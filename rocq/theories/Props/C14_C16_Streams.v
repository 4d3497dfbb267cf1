(** C14 - C16: the stream ciphers ChaCha, Salsa20 and RC4.
    [X_started r key iv s]: [s] comes from create or recreate with these arguments.  A session is any
    sequence of calls on one object with any buffers the rules allow (see Spec/Modes.v). *)
From Coq Require Import NArith Arith List Bool Permutation.
From Verif Require Import Lib.Res Lib.Bytes Spec.Modes Spec.Chacha Spec.Salsa20 Spec.Rc4 Model.Mem Model.Modes
  Model.Chacha Model.Salsa20 Model.Rc4 Proof.ChachaP Proof.Salsa20P Proof.Rc4P Proof.StreamDemo.
Import ListNotations.
Local Open Scope N_scope.

(** C14.  Every key of 1..32 bytes, every nonce of 0..24 bytes, every number of rounds; with a 9..12 byte
    nonce the stream is that of RFC 8439 for 2^38 bytes. *)
Theorem C14_chacha_create r key iv : (0 < length key <= 32)%nat -> (length iv <= 24)%nat -> exists s, chacha_create r key iv = Ok s.
Proof. exact (chacha_create_total r key iv). Qed.
Theorem C14_chacha_encrypt r key iv s0 inp s out : bytes_ok key -> bytes_ok iv -> chacha_started r key iv s0 ->
  session chacha_crypt s0 inp s out -> ((8 < length iv <= 12)%nat -> N.of_nat (length inp) <= 2 ^ 38) ->
  out = xor_ks (ks_byte 64 (fun n => chacha_ks r key iv (N.of_nat n))) 0 inp.
Proof. exact (chacha_session r key iv s0 inp s out). Qed.
Theorem C14_chacha_prng r key iv s0 s out : bytes_ok key -> bytes_ok iv -> chacha_started r key iv s0 ->
  gsession chacha_prng s0 s out -> ((8 < length iv <= 12)%nat -> N.of_nat (length out) <= 2 ^ 38) ->
  out = map (ks_byte 64 (fun n => chacha_ks r key iv (N.of_nat n))) (seq 0 (length out)).
Proof. exact (chacha_gsession r key iv s0 s out). Qed.
(** the first IETF form by the letter: 32 byte key, 12 byte nonce, default rounds *)
Theorem C14_chacha_rfc8439 key nonce n : (length key = 32)%nat -> (length nonce = 12)%nat ->
  chacha_ks 0 key nonce n =
  chacha_block 20 ([0x61707865; 0x3320646e; 0x79622d32; 0x6b206574] ++ Words.le_words 4 8 key ++ [n] ++ Words.le_words 4 3 nonce).
Proof. exact (chacha_ks_rfc key nonce n). Qed.
Theorem C14_chacha_20_rounds x :
  chacha_rounds 20 x = Nat.iter 10 (fun y => chacha_diagonal_round (chacha_column_round y)) x.
Proof. exact (chacha_rounds_20 x). Qed.
Theorem C14_chacha_decrypt r key iv s0 s0' inp s out s' back : bytes_ok key -> bytes_ok iv ->
  chacha_started r key iv s0 -> chacha_started r key iv s0' ->
  session chacha_crypt s0 inp s out -> session chacha_crypt s0' out s' back -> back = inp.
Proof. exact (chacha_roundtrip r key iv s0 s0' inp s out s' back). Qed.
(** no call fails and nothing but the output is written, up to 2^70 - 64 bytes, 2^38 - 64 with a 9..12 byte nonce *)
Theorem C14_chacha_safe r key iv s0 inp s out n : bytes_ok key -> bytes_ok iv -> chacha_started r key iv s0 ->
  session chacha_crypt s0 inp s out -> N.of_nat (length inp + n) <= chacha_room iv ->
  call_safe_upto chacha_crypt n s /\ gcall_safe_upto chacha_prng n s.
Proof. exact (chacha_safe_room r key iv s0 inp s out n). Qed.
Theorem C14_chacha_prng_safe r key iv s0 s out n : bytes_ok key -> bytes_ok iv -> chacha_started r key iv s0 ->
  gsession chacha_prng s0 s out -> N.of_nat (length out + n) <= chacha_room iv ->
  call_safe_upto chacha_crypt n s /\ gcall_safe_upto chacha_prng n s.
Proof. exact (chacha_gsafe_room r key iv s0 s out n). Qed.
(** beyond: the carry out of the 32 bit counter goes into the nonce, so the stream continues with the
    stream of the next nonce (key stream reuse), and the last block of the last nonce stops the program *)
Theorem C14_chacha_nonce_overlap r key iv s0 inp s out k j : bytes_ok key -> bytes_ok iv -> length iv = 12%nat ->
  le_val (firstn 4 iv) + 1 < 2 ^ 32 -> chacha_started r key iv s0 -> session chacha_crypt s0 inp s out ->
  N.of_nat k = 2 ^ 38 -> (j < k)%nat -> (k + j < length inp)%nat ->
  nth (k + j) out 0 = N.lxor (nth (k + j) inp 0)
    (ks_byte 64 (fun n => chacha_ks r key (next_nonce iv) (N.of_nat n)) j).
Proof. exact (chacha_overlap_bytes r key iv s0 inp s out k j). Qed.
Theorem C14_chacha_last_block_refuted r key n8 s0 inp s out : bytes_ok key -> bytes_ok n8 -> length n8 = 8%nat ->
  chacha_started r key ([255; 255; 255; 255] ++ n8) s0 ->
  session chacha_crypt s0 inp s out -> N.of_nat (length inp) = 2 ^ 38 - 64 ->
  forall m src dst len, buffers_ok src dst (S len) -> exists e, chacha_crypt s m src dst (S len) = Err e.
Proof. exact (chacha_last_block r key n8 s0 inp s out). Qed.
Print Assumptions C14_chacha_create. Print Assumptions C14_chacha_encrypt. Print Assumptions C14_chacha_prng.
Print Assumptions C14_chacha_rfc8439. Print Assumptions C14_chacha_20_rounds. Print Assumptions C14_chacha_decrypt.
Print Assumptions C14_chacha_safe. Print Assumptions C14_chacha_prng_safe. Print Assumptions C14_chacha_nonce_overlap.
Print Assumptions C14_chacha_last_block_refuted.
Definition key32 : list N := map N.of_nat (seq 0 32).
Example C14_session : exists s0 s out, chacha_create 0 key32 (repeat 7 12) = Ok s0 /\
  session chacha_crypt s0 [0; 1; 2; 7; 8] s out /\ length out = 5%nat.
Proof. apply two_calls_session. vm_compute. reflexivity. Qed.

(** C15.  Every key of 1..32 bytes, every nonce of 0..24 bytes, every number of rounds. *)
Theorem C15_salsa20_create r key iv : (0 < length key <= 32)%nat -> (length iv <= 24)%nat -> exists s, salsa20_create r key iv = Ok s.
Proof. exact (salsa20_create_total r key iv). Qed.
Theorem C15_salsa20_encrypt r key iv s0 inp s out : bytes_ok key -> bytes_ok iv -> salsa20_started r key iv s0 ->
  session salsa20_crypt s0 inp s out -> out = xor_ks (ks_byte 64 (fun n => salsa_ks r key iv (N.of_nat n))) 0 inp.
Proof. intros Hk Hi. exact (salsa20_session r key iv Hk Hi s0 inp s out). Qed.
Theorem C15_salsa20_prng r key iv s0 s out : bytes_ok key -> bytes_ok iv -> salsa20_started r key iv s0 ->
  gsession salsa20_prng s0 s out -> out = map (ks_byte 64 (fun n => salsa_ks r key iv (N.of_nat n))) (seq 0 (length out)).
Proof. intros Hk Hi. exact (salsa20_gsession r key iv Hk Hi s0 s out). Qed.
Theorem C15_salsa20_decrypt r key iv s0 s0' inp s out s' back : bytes_ok key -> bytes_ok iv ->
  salsa20_started r key iv s0 -> salsa20_started r key iv s0' ->
  session salsa20_crypt s0 inp s out -> session salsa20_crypt s0' out s' back -> back = inp.
Proof. intros Hk Hi. exact (salsa20_roundtrip r key iv Hk Hi s0 s0' inp s out s' back). Qed.
Theorem C15_salsa20_safe r key iv s0 inp s out n : bytes_ok key -> bytes_ok iv -> salsa20_started r key iv s0 ->
  session salsa20_crypt s0 inp s out -> N.of_nat (length inp + n) <= 2 ^ 70 - 64 ->
  call_safe_upto salsa20_crypt n s /\ gcall_safe_upto salsa20_prng n s.
Proof. intros Hk Hi. exact (salsa20_safe r key iv Hk Hi s0 inp s out n). Qed.
Theorem C15_salsa20_prng_safe r key iv s0 s out n : bytes_ok key -> bytes_ok iv -> salsa20_started r key iv s0 ->
  gsession salsa20_prng s0 s out -> N.of_nat (length out + n) <= 2 ^ 70 - 64 ->
  call_safe_upto salsa20_crypt n s /\ gcall_safe_upto salsa20_prng n s.
Proof. intros Hk Hi. exact (salsa20_gsafe r key iv Hk Hi s0 s out n). Qed.
Print Assumptions C15_salsa20_create. Print Assumptions C15_salsa20_encrypt. Print Assumptions C15_salsa20_prng.
Print Assumptions C15_salsa20_decrypt. Print Assumptions C15_salsa20_safe. Print Assumptions C15_salsa20_prng_safe.
Example C15_session : exists s0 s out, salsa20_create 0 key32 (repeat 7 8) = Ok s0 /\
  session salsa20_crypt s0 [0; 1; 2; 7; 8] s out /\ length out = 5%nat.
Proof. apply two_calls_session. vm_compute. reflexivity. Qed.

(** C16 *)
Theorem C16_rc4_create n key : (0 < length key <= 256)%nat -> exists s, rc4_create n key [] = Ok s.
Proof. exact (rc4_create_total n key). Qed.
Theorem C16_rc4_encrypt n key s0 inp s out : rc4_started n key s0 -> session rc4_crypt s0 inp s out ->
  out = xor_ks (fun i => rc4_ks key (N.to_nat n + i)) 0 inp /\
  Permutation (rc4_p s) (map N.of_nat (seq 0 256)) /\ (rc4_i s < 256 /\ rc4_j s < 256) /\
  call_safe rc4_crypt 1 s /\ gcall_safe rc4_prng s.
Proof. exact (rc4_session n key s0 inp s out). Qed.
Theorem C16_rc4_prng n key s0 s out : rc4_started n key s0 -> gsession rc4_prng s0 s out ->
  out = map (fun i => rc4_ks key (N.to_nat n + i)) (seq 0 (length out)) /\
  Permutation (rc4_p s) (map N.of_nat (seq 0 256)) /\ (rc4_i s < 256 /\ rc4_j s < 256) /\
  call_safe rc4_crypt 1 s /\ gcall_safe rc4_prng s.
Proof. exact (rc4_gsession n key s0 s out). Qed.
Theorem C16_rc4_decrypt n key s0 s0' inp s out s' back : rc4_started n key s0 -> rc4_started n key s0' ->
  session rc4_crypt s0 inp s out -> session rc4_crypt s0' out s' back -> back = inp.
Proof. exact (rc4_roundtrip n key s0 s0' inp s out s' back). Qed.
Print Assumptions C16_rc4_create. Print Assumptions C16_rc4_encrypt. Print Assumptions C16_rc4_prng. Print Assumptions C16_rc4_decrypt.
Example C16_session : exists s0 s out, rc4_create 5 [1; 2; 3] [] = Ok s0 /\
  session rc4_crypt s0 [0; 1; 2; 7; 8] s out /\ length out = 5%nat.
Proof. apply two_calls_session. vm_compute. reflexivity. Qed.
