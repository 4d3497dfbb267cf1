(** C53: what a change of the ciphertext does to the plaintext (Spec/Sync.v), for every ciphertext, also one that no encryption made.
    The sessions are any sequences of calls, as in C08 - C13. *)
From Coq Require Import NArith Arith List Bool.
From Verif Require Import Lib.Res Lib.Bytes Spec.Block Spec.Cipher Spec.Modes Spec.Sync Model.BlockApi Model.Mem Model.Modes Model.Ciphers Model.Speck
  Model.Chacha Model.Salsa20 Model.Rc4 Proof.ModesBP Proof.ModesRefute Proof.ChachaP Proof.Salsa20P Proof.Rc4P Proof.SyncP.
Import ListNotations.
Local Open Scope nat_scope.

Section Modes.
  Variables (c : bcipher) (r : N) (key iv : list N) (st : bc_st c).
  Hypothesis Hcreate : bc_create c r key = Ok st.
  Hypothesis Hworks : works c st.
  Hypothesis Hiv : bytes_ok iv.
  Let bs := bc_bs c.
  Let f := fn (bc_enc c st).

  Theorem C53_ecb i s0 s0' ct ct' s s' pt pt' : ecb_blk c s0 = st -> ecb_blk c s0' = st ->
    session (ecb_dec_op c) s0 ct s pt -> session (ecb_dec_op c) s0' ct' s' pt' -> block_replaced bs i ct ct' -> damage_stays bs i pt pt'.
  Proof. exact (ecb_damage c st Hworks i s0 s0' ct ct' s s' pt pt'). Qed.
  (** CBC decryption of any string of blocks gives the message whose CBC encryption it is *)
  Theorem C53_cbc_any s0 ct s pt : cbc_create c r key iv = Ok s0 -> session (cbc_decrypt c) s0 ct s pt -> cbc_spec bs f (pad_iv bs iv) pt ct.
  Proof. exact (cbc_decrypts_any c r key iv st Hcreate Hworks Hiv s0 ct s pt). Qed.
  Theorem C53_cbc i s0 ct ct' s s' pt pt' : cbc_create c r key iv = Ok s0 ->
    session (cbc_decrypt c) s0 ct s pt -> session (cbc_decrypt c) s0 ct' s' pt' -> block_replaced bs i ct ct' -> damage_cbc bs i ct ct' pt pt'.
  Proof. exact (cbc_damage c r key iv st Hcreate Hworks Hiv i s0 ct ct' s s' pt pt'). Qed.
  (** blocks lost, inserted or another start value: a block is deciphered rightly as soon as it and the one before it have arrived *)
  Theorem C53_cbc_resync iv2 i j s0 s0' ct ct' s s' pt pt' : bytes_ok iv2 -> cbc_create c r key iv = Ok s0 -> cbc_create c r key iv2 = Ok s0' ->
    session (cbc_decrypt c) s0 ct s pt -> session (cbc_decrypt c) s0' ct' s' pt' -> S i < length ct / bs -> S j < length ct' / bs ->
    block bs i ct = block bs j ct' -> block bs (S i) ct = block bs (S j) ct' -> block bs (S i) pt = block bs (S j) pt'.
  Proof. exact (fun H2 => cbc_resync c r key iv iv2 st Hcreate Hworks Hiv H2 i j s0 s0' ct ct' s s' pt pt'). Qed.
  (** encryption shows how many blocks at the beginning two messages have in common, and no more *)
  Theorem C53_cbc_prefix s0 pt pt' s s' ct ct' : cbc_create c r key iv = Ok s0 ->
    session (cbc_encrypt c) s0 pt s ct -> session (cbc_encrypt c) s0 pt' s' ct' -> length pt' = length pt ->
    forall n, n <= length pt / bs -> ((forall j, j < n -> block bs j ct' = block bs j ct) <-> (forall j, j < n -> block bs j pt' = block bs j pt)).
  Proof. exact (cbc_prefix c r key iv st Hcreate Hworks Hiv s0 pt pt' s s' ct ct'). Qed.
  (** CFB, as far as decryption is right (C10): one block per call, into a separate buffer *)
  Let cfb_op (s : fb c) m src dst len := assert_ ((len =? bs) && ((src + bs <=? dst) || (dst + bs <=? src))) (cfb_decrypt c s m src dst len).
  Theorem C53_cfb i s0 ct ct' s s' pt pt' : fb_create c r key iv = Ok s0 ->
    session cfb_op s0 ct s pt -> session cfb_op s0 ct' s' pt' -> block_replaced bs i ct ct' -> damage_cfb bs i ct ct' pt pt'.
  Proof. exact (cfb_damage c r key iv st Hcreate Hworks Hiv i s0 ct ct' s s' pt pt'). Qed.
  Theorem C53_cfb_resync iv2 i j s0 s0' ct ct' s s' pt pt' : bytes_ok iv2 -> fb_create c r key iv = Ok s0 -> fb_create c r key iv2 = Ok s0' ->
    session cfb_op s0 ct s pt -> session cfb_op s0' ct' s' pt' -> S i < length ct / bs -> S j < length ct' / bs ->
    block bs i ct = block bs j ct' -> block bs (S i) ct = block bs (S j) ct' -> block bs (S i) pt = block bs (S j) pt'.
  Proof. exact (fun H2 => cfb_resync c r key iv iv2 st Hcreate Hworks Hiv H2 i j s0 s0' ct ct' s s' pt pt'). Qed.
  Theorem C53_ofb s0 ct ct' s s' pt pt' : fb_create c r key iv = Ok s0 ->
    session (ofb_crypt c) s0 ct s pt -> session (ofb_crypt c) s0 ct' s' pt' -> length ct' = length ct -> damage_bits ct ct' pt pt'.
  Proof. exact (ofb_damage c r key iv st Hcreate Hworks Hiv s0 ct ct' s s' pt pt'). Qed.
  Theorem C53_ctr s0 ct ct' s s' pt pt' : ctr_create c r key iv = Ok s0 ->
    session (ctr_crypt c) s0 ct s pt -> session (ctr_crypt c) s0 ct' s' pt' -> length ct' = length ct -> damage_bits ct ct' pt pt'.
  Proof. exact (ctr_damage c r key iv st Hcreate Hworks Hiv s0 ct ct' s s' pt pt'). Qed.
End Modes.
Theorem C53_chacha r key iv s0 ct ct' s s' pt pt' : bytes_ok key -> bytes_ok iv -> chacha_started r key iv s0 ->
  session chacha_crypt s0 ct s pt -> session chacha_crypt s0 ct' s' pt' -> length ct' = length ct -> ((8 < length iv <= 12)%nat -> (N.of_nat (length ct) <= 2 ^ 38)%N) ->
  damage_bits ct ct' pt pt'.
Proof.
  intros Hk Hi H0 H H' L B. assert (B' : (8 < length iv <= 12)%nat -> (N.of_nat (length ct') <= 2 ^ 38)%N) by (rewrite L; exact B).
  exact (ks_damage _ _ _ _ _ (chacha_session r key iv s0 ct s pt Hk Hi H0 H B) (chacha_session r key iv s0 ct' s' pt' Hk Hi H0 H' B') L).
Qed.
Theorem C53_salsa20 r key iv s0 ct ct' s s' pt pt' : bytes_ok key -> bytes_ok iv -> salsa20_started r key iv s0 ->
  session salsa20_crypt s0 ct s pt -> session salsa20_crypt s0 ct' s' pt' -> length ct' = length ct -> damage_bits ct ct' pt pt'.
Proof.
  intros Hk Hi H0 H H' L. exact (ks_damage _ _ _ _ _ (salsa20_session r key iv Hk Hi s0 ct s pt H0 H) (salsa20_session r key iv Hk Hi s0 ct' s' pt' H0 H') L).
Qed.
Theorem C53_rc4 n key s0 ct ct' s s' pt pt' : rc4_started n key s0 ->
  session rc4_crypt s0 ct s pt -> session rc4_crypt s0 ct' s' pt' -> length ct' = length ct -> damage_bits ct ct' pt pt'.
Proof.
  intros H0 H H' L. exact (ks_damage _ _ _ _ _ (proj1 (rc4_session n key s0 ct s pt H0 H)) (proj1 (rc4_session n key s0 ct' s' pt' H0 H')) L).
Qed.
Print Assumptions C53_ecb. Print Assumptions C53_cbc_any. Print Assumptions C53_cbc. Print Assumptions C53_cbc_resync. Print Assumptions C53_cbc_prefix.
Print Assumptions C53_cfb. Print Assumptions C53_cfb_resync. Print Assumptions C53_ofb. Print Assumptions C53_ctr.
Print Assumptions C53_chacha. Print Assumptions C53_salsa20. Print Assumptions C53_rc4.

(** Two ciphertexts of three blocks that differ in the block in the middle, and what CBC with Speck32 makes of them. *)
Definition demo_ct : list N := [1; 2; 3; 4; 5; 6; 7; 8; 9; 10; 11; 12]%N.
Definition demo_ct' : list N := [1; 2; 3; 4; 5; 6; 71; 8; 9; 10; 11; 12]%N.
Definition at_mem (l : list N) : mem := fun x => nth x l 0%N.
Example C53_replaced : block_replaced 4 1 demo_ct demo_ct'.
Proof.
  split; [reflexivity|]. split; [discriminate|]. intros [|[|[|j]]] H; [reflexivity|now destruct H|reflexivity|].
  unfold block, slice. rewrite !skipn_all2; [reflexivity|..]; cbn; do 12 apply le_n_S; apply Nat.le_0_l.
Qed.
Example C53_session : exists s0 s pt s' pt', cbc_create (speck_desc speck32) 0 demo_key [9]%N = Ok s0 /\
  session (cbc_decrypt (speck_desc speck32)) s0 demo_ct s pt /\ session (cbc_decrypt (speck_desc speck32)) s0 demo_ct' s' pt' /\
  block 4 0 pt' = block 4 0 pt /\ block 4 1 pt' <> block 4 1 pt /\ xor_bytes (block 4 2 pt') (block 4 2 pt) = [0; 0; 64; 0]%N.
Proof.
  destruct (ok_some (cbc_create (speck_desc speck32) 0 demo_key [9]%N) (fun s0 =>
    match cbc_decrypt (speck_desc speck32) s0 (at_mem demo_ct) 0 100 12 with Ok (s1, m1) =>
      match cbc_decrypt (speck_desc speck32) s0 (at_mem demo_ct') 0 100 12 with Ok (s2, m2) =>
        bytes_eqb (block 4 0 (rd m2 100 12)) (block 4 0 (rd m1 100 12)) && negb (bytes_eqb (block 4 1 (rd m2 100 12)) (block 4 1 (rd m1 100 12))) &&
        bytes_eqb (xor_bytes (block 4 2 (rd m2 100 12)) (block 4 2 (rd m1 100 12))) [0; 0; 64; 0]%N
      | _ => false end | _ => false end)) as (s0 & E0 & H); [vm_compute; reflexivity|].
  apply ok_some in H. destruct H as ([s1 m1] & E1 & H). cbv beta iota in H. apply ok_some in H. destruct H as ([s2 m2] & E2 & H). cbv beta iota in H.
  apply andb_prop in H. destruct H as [H H3]. apply andb_prop in H. destruct H as [H1 H2]. apply bytes_eqb_false in H2.
  unfold bytes_eqb in H1, H3. destruct (list_eq_dec N.eq_dec _ _) as [H1'|] in H1; [|discriminate]. destruct (list_eq_dec N.eq_dec _ _) as [H3'|] in H3; [|discriminate].
  exists s0, s1, (rd m1 100 12 ++ []), s2, (rd m2 100 12 ++ []).
  split; [exact E0|].
  split; [change demo_ct with (rd (at_mem demo_ct) 0 12 ++ []); apply (ses_call (cbc_decrypt (speck_desc speck32)) s0 (at_mem demo_ct) 0 100 12 s1 m1 [] s1 []);
    [right; cbn; repeat apply le_n_S; apply Nat.le_0_l|repeat constructor|exact E1|constructor]|].
  split; [change demo_ct' with (rd (at_mem demo_ct') 0 12 ++ []); apply (ses_call (cbc_decrypt (speck_desc speck32)) s0 (at_mem demo_ct') 0 100 12 s2 m2 [] s2 []);
    [right; cbn; repeat apply le_n_S; apply Nat.le_0_l|repeat constructor|exact E2|constructor]|].
  rewrite !app_nil_r. exact (conj H1' (conj H2 H3')).
Qed.
