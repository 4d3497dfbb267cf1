(** C08 - C13: modes of operation, for any block cipher object that is a permutation. *)
From Coq Require Import NArith Arith List Bool.
From Verif Require Import Lib.Res Lib.Bytes Spec.Block Spec.Cipher Spec.Modes Spec.CfbDec Model.BlockApi Model.Mem Model.Modes
  Model.Ciphers Model.Speck Proof.ModesBP Proof.ModesFinal Proof.ModesRefute Proof.CiphersP Proof.CfbDecP.
Import ListNotations.
Local Open Scope nat_scope.

(** In every theorem [st] is the block cipher object made from the same rounds and key, and a session is
    any sequence of calls on one object, with any buffers the rules allow; the input and output of the
    session are the concatenations. *)
Section Modes.
  Variables (c : bcipher) (r : N) (key iv : list N) (st : bc_st c).
  Hypothesis Hcreate : bc_create c r key = Ok st.
  Hypothesis Hworks : works c st.
  Hypothesis Hiv : bytes_ok iv.
  Let bs := bc_bs c.
  Let f := fn (bc_enc c st).

  (** C08 *)
  Theorem C08_ecb_encrypt s0 s inp out : ecb_create c r key iv = Ok s0 ->
    session (ecb_enc_op c) s0 inp s out -> ecb_spec bs f inp out /\ call_safe (ecb_enc_op c) bs s.
  Proof. exact (ecb_encrypts c r key iv st Hcreate Hworks s0 s inp out). Qed.
  Theorem C08_ecb_decrypt s0 s s' inp out s1 out' : ecb_create c r key iv = Ok s0 ->
    session (ecb_enc_op c) s0 inp s out -> session (ecb_dec_op c) s' out s1 out' -> ecb_blk c s' = st -> out' = inp.
  Proof. exact (ecb_decrypts c r key iv st Hcreate Hworks s0 s s' inp out s1 out'). Qed.
  Theorem C08_ecb_decrypt_safe s : ecb_blk c s = st -> call_safe (ecb_dec_op c) bs s.
  Proof. exact (ecb_dec_safe c st Hworks s). Qed.

  (** C09 *)
  Theorem C09_cbc_encrypt s0 s inp out : cbc_create c r key iv = Ok s0 ->
    session (cbc_encrypt c) s0 inp s out -> cbc_spec bs f (pad_iv bs iv) inp out /\ call_safe (cbc_encrypt c) bs s.
  Proof. exact (cbc_encrypts c r key iv st Hcreate Hworks Hiv s0 s inp out). Qed.
  Theorem C09_cbc_decrypt s0 s s1 inp out out' : cbc_create c r key iv = Ok s0 ->
    session (cbc_encrypt c) s0 inp s out -> session (cbc_decrypt c) s0 out s1 out' ->
    out' = inp /\ call_safe (cbc_decrypt c) bs s1.
  Proof. exact (cbc_decrypts c r key iv st Hcreate Hworks Hiv s0 s s1 inp out out'). Qed.

  (** C10: encryption is CFB; decryption is right for messages of at most one block in separate buffers, and for longer
      ones fed block by block. *)
  Theorem C10_cfb_encrypt s0 s inp out : fb_create c r key iv = Ok s0 ->
    session (cfb_encrypt c) s0 inp s out -> cfb_spec bs f (pad_iv bs iv) inp out /\ call_safe (cfb_encrypt c) 1 s.
  Proof. exact (cfb_encrypts c r key iv st Hcreate Hworks Hiv s0 s inp out). Qed.
  Theorem C10_cfb_decrypt_one_partial s0 m src dst len : fb_create c r key iv = Ok s0 ->
    0 < len <= bs -> src + len <= dst \/ dst + bs <= src -> bytes_ok (rd m src len) ->
    exists s' m', cfb_decrypt c s0 m src dst len = Ok (s', m') /\
      cfb_spec bs f (pad_iv bs iv) (rd m' dst len) (rd m src len) /\ frame m m' dst bs.
  Proof. exact (cfb_dec_partial c r key iv st Hcreate Hworks Hiv s0 m src dst len). Qed.
  Theorem C10_cfb_decrypt_blocks_partial s0 s s1 inp out out' : fb_create c r key iv = Ok s0 ->
    session (cfb_encrypt c) s0 inp s out ->
    session (fun s m src dst len => assert_ ((len =? bs) && ((src + bs <=? dst) || (dst + bs <=? src))) (cfb_decrypt c s m src dst len))
      s0 out s1 out' -> out' = inp.
  Proof. exact (cfb_dec_blockwise c r key iv st Hcreate Hworks Hiv s0 s s1 inp out out'). Qed.
  (** what one call leaves for more than a block: not the plaintext, but the key stream of the last block and, after it, the old contents of the
      output buffer xored with the ciphertext *)
  Theorem C10_cfb_decrypt_exact s0 m src dst len : fb_create c r key iv = Ok s0 ->
    bs < len -> src + len <= dst \/ dst + len <= src -> bytes_ok (rd m src len) ->
    exists s' m', cfb_decrypt c s0 m src dst len = Ok (s', m') /\
      rd m' dst len = cfb_dec_leaves bs f (pad_iv bs iv) (rd m dst len) (rd m src len) /\ frame m m' dst len.
  Proof. exact (cfb_dec_long c r key iv st Hcreate Hworks Hiv s0 m src dst len). Qed.

  (** C11 *)
  Theorem C11_ofb_crypt s0 s inp out : fb_create c r key iv = Ok s0 ->
    session (ofb_crypt c) s0 inp s out -> out = xor_ks (ofb_ks bs f (pad_iv bs iv)) 0 inp /\ call_safe (ofb_crypt c) 1 s.
  Proof. exact (ofb_crypts c r key iv st Hcreate Hworks Hiv s0 s inp out). Qed.
  Theorem C11_ofb_prng s0 s out : fb_create c r key iv = Ok s0 -> gsession (fb_prng c) s0 s out ->
    out = map (ofb_ks bs f (pad_iv bs iv)) (seq 0 (length out)) /\ gcall_safe (fb_prng c) s.
  Proof. exact (ofb_prngs c r key iv st Hcreate Hworks Hiv s0 s out). Qed.
  Theorem C11_ofb_decrypt s0 s s' inp out out' : fb_create c r key iv = Ok s0 ->
    session (ofb_crypt c) s0 inp s out -> session (ofb_crypt c) s0 out s' out' -> out' = inp.
  Proof. exact (ofb_involution c r key iv st Hcreate Hworks Hiv s0 s s' inp out out'). Qed.

  (** C12: CTR with the counter of the library (first byte fixed) ... *)
  Theorem C12_ctr_crypt_lib s0 s inp out : ctr_create c r key iv = Ok s0 -> session (ctr_crypt c) s0 inp s out ->
    out = xor_ks (ks_byte bs (fun i => f (ctr_at (pad_iv bs iv) i))) 0 inp /\ call_safe (ctr_crypt c) 1 s.
  Proof. exact (ctr_crypts_lib c r key iv st Hcreate Hworks Hiv s0 s inp out). Qed.
  (** ... which is CTR as long as the counter does not carry into the first byte *)
  Theorem C12_ctr_crypt_partial s0 s inp out : ctr_create c r key iv = Ok s0 -> session (ctr_crypt c) s0 inp s out ->
    (be_val (skipn 1 (pad_iv bs iv)) + N.of_nat ((length inp + (bs - 1)) / bs) <= 256 ^ N.of_nat (bs - 1))%N ->
    out = xor_ks (ctr_ks bs f (pad_iv bs iv)) 0 inp.
  Proof. exact (ctr_crypts c r key iv st Hcreate Hworks Hiv s0 s inp out). Qed.
  Theorem C12_ctr_prng_partial s0 s out : ctr_create c r key iv = Ok s0 -> gsession (ctr_prng c) s0 s out ->
    (be_val (skipn 1 (pad_iv bs iv)) + N.of_nat ((length out + (bs - 1)) / bs) <= 256 ^ N.of_nat (bs - 1))%N ->
    out = map (ctr_ks bs f (pad_iv bs iv)) (seq 0 (length out)).
  Proof. exact (ctr_prngs c r key iv st Hcreate Hworks Hiv s0 s out). Qed.
  Theorem C12_ctr_prng_lib s0 s out : ctr_create c r key iv = Ok s0 -> gsession (ctr_prng c) s0 s out ->
    out = map (ks_byte bs (fun i => f (ctr_at (pad_iv bs iv) i))) (seq 0 (length out)) /\ gcall_safe (ctr_prng c) s.
  Proof. exact (ctr_prngs_lib c r key iv st Hcreate Hworks Hiv s0 s out). Qed.
  Theorem C12_ctr_decrypt s0 s s' inp out out' : ctr_create c r key iv = Ok s0 ->
    session (ctr_crypt c) s0 inp s out -> session (ctr_crypt c) s0 out s' out' -> out' = inp.
  Proof. exact (ctr_involution c r key iv st Hcreate Hworks Hiv s0 s s' inp out out'). Qed.
  (** a re-keyed object gives the key stream of a fresh one *)
  Theorem C12_ctr_rekey sold s0 s inp out :
    recreate_ok c (ctr_blk c sold) r key -> ctr_recreate c sold r key iv = Ok s0 -> session (ctr_crypt c) s0 inp s out ->
    out = xor_ks (ks_byte bs (fun i => f (ctr_at (pad_iv bs iv) i))) 0 inp /\ call_safe (ctr_crypt c) 1 s.
  Proof. exact (ctr_rekey_crypts c r key iv st Hcreate Hworks Hiv sold s0 s inp out). Qed.

  (** C13 *)
  Theorem C13_ctr_no_repeats s0 s n out : ctr_create c r key iv = Ok s0 ->
    gsession (ctr_prng c) s0 s out -> length out = n * bs -> (N.of_nat n <= 256 ^ N.of_nat (bs - 1))%N ->
    forall i j, i < j < n -> block bs i out <> block bs j out.
  Proof. exact (ctr_no_repeats c r key iv st Hcreate Hworks Hiv s0 s n out). Qed.
End Modes.
Print Assumptions C08_ecb_encrypt. Print Assumptions C08_ecb_decrypt. Print Assumptions C08_ecb_decrypt_safe.
Print Assumptions C09_cbc_encrypt. Print Assumptions C09_cbc_decrypt.
Print Assumptions C10_cfb_encrypt. Print Assumptions C10_cfb_decrypt_one_partial. Print Assumptions C10_cfb_decrypt_blocks_partial. Print Assumptions C10_cfb_decrypt_exact.
Print Assumptions C11_ofb_crypt. Print Assumptions C11_ofb_prng. Print Assumptions C11_ofb_decrypt.
Print Assumptions C12_ctr_crypt_lib. Print Assumptions C12_ctr_crypt_partial. Print Assumptions C12_ctr_prng_partial.
Print Assumptions C12_ctr_prng_lib. Print Assumptions C12_ctr_decrypt. Print Assumptions C12_ctr_rekey.
Print Assumptions C13_ctr_no_repeats.

(** The hypotheses are met, for instance by Speck32 with a full key. *)
Example modes_object : exists st, bc_create (speck_desc speck32) 0 [1; 2; 3; 4; 5; 6; 7; 8]%N = Ok st /\ works (speck_desc speck32) st.
Proof. apply (speck32_default [1; 2; 3; 4; 5; 6; 7; 8]%N); [split; [repeat constructor|split; cbn; repeat constructor]|cbn; repeat constructor]. Qed.
(** a session of two calls, in place and into another buffer *)
Example modes_session : exists s0 s out, ctr_create (speck_desc speck32) 0 demo_key [9%N] = Ok s0 /\
  session (ctr_crypt (speck_desc speck32)) s0 [0; 1; 2; 7; 8]%N s out /\ length out = 5.
Proof. exact ctr_session_demo. Qed.

(** C10: what CFB decryption does to two blocks, to a byte, and in place *)
Theorem C10_cfb_decrypt_refuted : exists s0 s1 m1 s2 m2, fb_create (speck_desc speck32) 0 demo_key [] = Ok s0 /\
  cfb_encrypt (speck_desc speck32) s0 demo_mem 0 100 8 = Ok (s1, m1) /\
  cfb_decrypt (speck_desc speck32) s0 m1 100 200 8 = Ok (s2, m2) /\ rd m2 200 8 <> rd demo_mem 0 8.
Proof. exact cfb_dec_refuted. Qed.
Print Assumptions C10_cfb_decrypt_refuted.
(** two blocks: the output is the key stream of the second block, and the old contents xored with the second block *)
Example C10_cfb_left : match fb_create (speck_desc speck32) 0 demo_key [] with
  | Ok s0 => match cfb_decrypt (speck_desc speck32) s0 demo_mem 0 100 8 with
    | Ok (_, m2) => bytes_eqb (rd m2 104 4) (xor_bytes (rd demo_mem 104 4) (rd demo_mem 4 4)) | Err _ => false end | Err _ => false end = true.
Proof. vm_compute. reflexivity. Qed.
Theorem C10_cfb_overrun_refuted : exists s0 s2 m2, fb_create (speck_desc speck32) 0 demo_key [] = Ok s0 /\
  cfb_decrypt (speck_desc speck32) s0 demo_mem 0 100 1 = Ok (s2, m2) /\ ~ frame demo_mem m2 100 1.
Proof. exact cfb_dec_frame_refuted. Qed.
Print Assumptions C10_cfb_overrun_refuted.
Theorem C10_cfb_inplace_refuted : exists s0 s1 m1 s2 m2, fb_create (speck_desc speck32) 0 demo_key [] = Ok s0 /\
  cfb_encrypt (speck_desc speck32) s0 demo_mem 0 0 4 = Ok (s1, m1) /\
  cfb_decrypt (speck_desc speck32) s0 m1 0 0 4 = Ok (s2, m2) /\ rd m2 0 4 <> rd demo_mem 0 4.
Proof. exact cfb_dec_inplace_refuted. Qed.
Print Assumptions C10_cfb_inplace_refuted.
(** C12: the carry out of the last bytes is lost *)
Theorem C12_ctr_carry_refuted : exists st s0 s1 m1, bc_create (speck_desc speck32) 0 demo_key = Ok st /\
  ctr_create (speck_desc speck32) 0 demo_key [0; 255; 255; 255]%N = Ok s0 /\
  ctr_prng (speck_desc speck32) s0 demo_mem 100 8 = Ok (s1, m1) /\
  rd m1 100 8 <> map (ctr_ks 4 (fn (bc_enc (speck_desc speck32) st)) [0; 255; 255; 255]%N) (seq 0 8).
Proof. exact ctr_carry_refuted. Qed.
Print Assumptions C12_ctr_carry_refuted.
