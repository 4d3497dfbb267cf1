(** C18: the Skein stream ciphers.  [sks_started p r key iv s]: [s] comes from create or recreate with these arguments.
    What the library computes is stated with the UBI chaining of Skein 1.3 (Spec/Skein.v): block [j + 1] of the key stream is
    output block [j] of Skein with the key, the output length 2^64 - 1 and the nonce; block 0 is public. *)
From Coq Require Import NArith Arith List Bool.
From Verif Require Import Lib.Res Lib.Bytes Lib.WordsP Spec.Words Spec.Block Spec.Modes Spec.Arx Spec.Skein Model.Mem Model.BlockApi Model.Threefish Model.Skein
  Proof.SkeinP Proof.SkeinHashP Proof.SkeinStreamP Proof.StreamDemo.
Import ListNotations.
Local Open Scope N_scope.

(** "keystream does not contain public constants" fails: for every key and nonce of one block the first block of output is the
    input combined with the nonce; without a nonce, with the configuration string of Skein. *)
Theorem C18_public_refuted p r key iv s0 inp s out : skein_par p -> blk (sk_bs p) key -> iv = [] \/ blk (sk_bs p) iv ->
  sks_started p r key iv s0 -> session (sks_crypt p) s0 inp s out -> (length inp <= sk_bs p)%nat ->
  out = xor_bytes inp (match iv with [] => zero_pad (sk_bs p) (sk_config (2 ^ 64 - 1)) | _ => iv end).
Proof. exact (skein_stream_public p r key iv s0 inp s out). Qed.
(** "different keys give different key streams" fails: only the first block of the key counts. *)
Theorem C18_first_block_refuted p r key key' iv : length key = length key' -> firstn (sk_bs p) key = firstn (sk_bs p) key' ->
  sks_create p r key iv = sks_create p r key' iv.
Proof. exact (skein_stream_first p r key key' iv). Qed.
(** A key shorter than a block makes create hash memory that was never written. *)
Theorem C18_short_key_refuted p r key iv : skein_par p -> (0 < length key < sk_bs p)%nat -> N.of_nat (length iv) < 2 ^ 32 -> sks_create p r key iv = Err Uninit.
Proof. exact (skein_stream_uninit p r key iv). Qed.
Print Assumptions C18_public_refuted. Print Assumptions C18_first_block_refuted. Print Assumptions C18_short_key_refuted.
Example C18_two_keys : exists s, sks_create threefish256 0 (repeat 7 33) [] = Ok s /\ repeat 7 33 <> repeat 7 32 ++ [8] /\
  firstn (sk_bs threefish256) (repeat 7 33) = firstn (sk_bs threefish256) (repeat 7 32 ++ [8]).
Proof. eexists. split; [vm_compute; reflexivity|]. split; [discriminate|reflexivity]. Qed.

(** What holds, for keys of one block and no nonce or a nonce of one block. *)
Theorem C18_skein256 key iv s0 inp s out : blk 32 key -> iv = [] \/ blk 32 iv -> sks_started threefish256 0 key iv s0 -> session (sks_crypt threefish256) s0 inp s out ->
  out = xor_ks (ks_byte 32 (skein_lib_stream 32 threefish256_cipher key iv)) 0 inp /\
  forall n, N.of_nat (length inp + n) <= 2 ^ 64 * 32 -> call_safe_upto (sks_crypt threefish256) n s /\ gcall_safe_upto (sks_prng threefish256) n s.
Proof. exact (skein_stream_is threefish256 threefish256_cipher key iv s0 inp s out (or_introl eq_refl) spec256). Qed.
Theorem C18_skein512 key iv s0 inp s out : blk 64 key -> iv = [] \/ blk 64 iv -> sks_started threefish512 0 key iv s0 -> session (sks_crypt threefish512) s0 inp s out ->
  out = xor_ks (ks_byte 64 (skein_lib_stream 64 threefish512_cipher key iv)) 0 inp /\
  forall n, N.of_nat (length inp + n) <= 2 ^ 64 * 64 -> call_safe_upto (sks_crypt threefish512) n s /\ gcall_safe_upto (sks_prng threefish512) n s.
Proof. exact (skein_stream_is threefish512 threefish512_cipher key iv s0 inp s out (or_intror (or_introl eq_refl)) spec512). Qed.
Theorem C18_skein1024 key iv s0 inp s out : blk 128 key -> iv = [] \/ blk 128 iv -> sks_started threefish1024 0 key iv s0 -> session (sks_crypt threefish1024) s0 inp s out ->
  out = xor_ks (ks_byte 128 (skein_lib_stream 128 threefish1024_cipher key iv)) 0 inp /\
  forall n, N.of_nat (length inp + n) <= 2 ^ 64 * 128 -> call_safe_upto (sks_crypt threefish1024) n s /\ gcall_safe_upto (sks_prng threefish1024) n s.
Proof. exact (skein_stream_is threefish1024 threefish1024_cipher key iv s0 inp s out (or_intror (or_intror eq_refl)) spec1024). Qed.
Theorem C18_skein256_prng key iv s0 s out : blk 32 key -> iv = [] \/ blk 32 iv -> sks_started threefish256 0 key iv s0 -> gsession (sks_prng threefish256) s0 s out ->
  out = map (ks_byte 32 (skein_lib_stream 32 threefish256_cipher key iv)) (seq 0 (length out)).
Proof. exact (skein_prng_is threefish256 threefish256_cipher key iv s0 s out (or_introl eq_refl) spec256). Qed.
Theorem C18_skein512_prng key iv s0 s out : blk 64 key -> iv = [] \/ blk 64 iv -> sks_started threefish512 0 key iv s0 -> gsession (sks_prng threefish512) s0 s out ->
  out = map (ks_byte 64 (skein_lib_stream 64 threefish512_cipher key iv)) (seq 0 (length out)).
Proof. exact (skein_prng_is threefish512 threefish512_cipher key iv s0 s out (or_intror (or_introl eq_refl)) spec512). Qed.
Theorem C18_skein1024_prng key iv s0 s out : blk 128 key -> iv = [] \/ blk 128 iv -> sks_started threefish1024 0 key iv s0 -> gsession (sks_prng threefish1024) s0 s out ->
  out = map (ks_byte 128 (skein_lib_stream 128 threefish1024_cipher key iv)) (seq 0 (length out)).
Proof. exact (skein_prng_is threefish1024 threefish1024_cipher key iv s0 s out (or_intror (or_intror eq_refl)) spec1024). Qed.
(** Decryption undoes encryption, any number of rounds. *)
Theorem C18_decrypt p r key iv s0 s0' inp s out s' back : skein_par p -> blk (sk_bs p) key -> iv = [] \/ blk (sk_bs p) iv ->
  sks_started p r key iv s0 -> sks_started p r key iv s0' -> session (sks_crypt p) s0 inp s out -> session (sks_crypt p) s0' out s' back -> back = inp.
Proof. exact (skein_stream_back p r key iv s0 s0' inp s out s' back). Qed.
Print Assumptions C18_skein256. Print Assumptions C18_skein512. Print Assumptions C18_skein1024.
Print Assumptions C18_skein256_prng. Print Assumptions C18_skein512_prng. Print Assumptions C18_skein1024_prng. Print Assumptions C18_decrypt.
Example C18_session : exists s0 s out, sks_create threefish256 0 (repeat 9 32) (repeat 3 32) = Ok s0 /\
  session (sks_crypt threefish256) s0 [0; 1; 2; 7; 8] s out /\ length out = 5%nat.
Proof. apply two_calls_session. vm_compute. reflexivity. Qed.
