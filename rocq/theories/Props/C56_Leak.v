(** C56: what ciphertexts made with one key show about the plaintexts (Spec/Leak.v), when key streams repeat, and how the modes hang together.
    The sessions are any sequences of calls, as in C08 - C13. *)
From Coq Require Import NArith Arith List Bool.
From Verif Require Import Lib.Res Lib.Bytes Spec.Block Spec.Cipher Spec.Modes Spec.Leak Model.BlockApi Model.Mem Model.Modes Model.Ciphers Model.Speck
  Proof.ModesBP Proof.ModesRefute Proof.LeakP.
Import ListNotations.
Local Open Scope nat_scope.

Section Modes.
  Variables (c : bcipher) (r : N) (key : list N) (st : bc_st c).
  Hypothesis Hcreate : bc_create c r key = Ok st.
  Hypothesis Hworks : works c st.
  Let bs := bc_bs c.

  (** ECB shows which blocks are equal, inside one message and between messages *)
  Theorem C56_ecb iv iv' s0 s0' s s' pt pt' ct ct' : ecb_create c r key iv = Ok s0 -> ecb_create c r key iv' = Ok s0' ->
    session (ecb_enc_op c) s0 pt s ct -> session (ecb_enc_op c) s0' pt' s' ct' ->
    forall i j, i < length pt / bs -> j < length pt' / bs -> (block bs i ct = block bs j ct' <-> block bs i pt = block bs j pt').
  Proof. exact (ecb_shows c r key st Hcreate Hworks iv iv' s0 s0' s s' pt pt' ct ct'). Qed.
  Theorem C56_cbc iv iv' s0 s0' s s' pt pt' ct ct' : bytes_ok iv -> bytes_ok iv' -> cbc_create c r key iv = Ok s0 -> cbc_create c r key iv' = Ok s0' ->
    session (cbc_encrypt c) s0 pt s ct -> session (cbc_encrypt c) s0' pt' s' ct' -> cbc_shows bs (pad_iv bs iv) pt ct (pad_iv bs iv') pt' ct'.
  Proof. exact (cbc_shown c r key st Hcreate Hworks iv iv' s0 s0' s s' pt pt' ct ct'). Qed.
  Theorem C56_cfb iv iv' s0 s0' s s' pt pt' ct ct' : bytes_ok iv -> bytes_ok iv' -> fb_create c r key iv = Ok s0 -> fb_create c r key iv' = Ok s0' ->
    session (cfb_encrypt c) s0 pt s ct -> session (cfb_encrypt c) s0' pt' s' ct' -> cfb_shows bs (pad_iv bs iv) pt ct (pad_iv bs iv') pt' ct'.
  Proof. exact (cfb_shown c r key st Hcreate Hworks iv iv' s0 s0' s s' pt pt' ct ct'). Qed.
  (** the OFB key stream runs in a circle through the start value: nothing repeats before the start value itself comes out *)
  Theorem C56_ofb iv s0 s out : bytes_ok iv -> fb_create c r key iv = Ok s0 -> gsession (fb_prng c) s0 s out ->
    forall i j, i < j -> S j * bs <= length out -> (block bs i out = block bs j out <-> block bs (j - i - 1) out = pad_iv bs iv).
  Proof. exact (ofb_repeats c r key st Hcreate Hworks iv s0 s out). Qed.
  (** CTR key streams of one key, or of one object, meet exactly where the counters do; the first byte is not counted (C12) *)
  Theorem C56_ctr iv iv' s0 s0' s s' out out' : bytes_ok iv -> bytes_ok iv' -> ctr_create c r key iv = Ok s0 -> ctr_create c r key iv' = Ok s0' ->
    gsession (ctr_prng c) s0 s out -> gsession (ctr_prng c) s0' s' out' -> forall i j, S i * bs <= length out -> S j * bs <= length out' ->
    (block bs i out = block bs j out' <-> nth 0 (pad_iv bs iv) 0%N = nth 0 (pad_iv bs iv') 0%N /\
      ((be_val (skipn 1 (pad_iv bs iv)) + N.of_nat i) mod 256 ^ N.of_nat (bs - 1) = (be_val (skipn 1 (pad_iv bs iv')) + N.of_nat j) mod 256 ^ N.of_nat (bs - 1))%N).
  Proof. exact (ctr_repeats c r key st Hcreate Hworks iv iv' s0 s0' s s' out out'). Qed.
  (** CBC and CFB of zeros are the OFB key stream: a start value used in two modes gives the key stream of one away in the other *)
  Theorem C56_cbc_zeros iv s0 s0' s s' n out out' : bytes_ok iv -> cbc_create c r key iv = Ok s0 -> fb_create c r key iv = Ok s0' ->
    session (cbc_encrypt c) s0 (repeat 0%N (n * bs)) s out -> gsession (fb_prng c) s0' s' out' -> length out' = n * bs -> out = out'.
  Proof. exact (cbc_zeros c r key st Hcreate Hworks iv s0 s0' s s' n out out'). Qed.
  Theorem C56_cfb_zeros iv s0 s0' s s' n out out' : bytes_ok iv -> fb_create c r key iv = Ok s0 -> fb_create c r key iv = Ok s0' ->
    session (cfb_encrypt c) s0 (repeat 0%N n) s out -> gsession (fb_prng c) s0' s' out' -> length out' = n -> out = out'.
  Proof. exact (cfb_zeros c r key st Hcreate Hworks iv s0 s0' s s' n out out'). Qed.
End Modes.
Print Assumptions C56_ecb. Print Assumptions C56_cbc. Print Assumptions C56_cfb. Print Assumptions C56_ofb. Print Assumptions C56_ctr.
Print Assumptions C56_cbc_zeros. Print Assumptions C56_cfb_zeros.

Definition leak_mem (l : list N) : mem := fun x => nth x l 0%N.
Definition leak_pt : list N := [1; 2; 3; 4; 194; 1; 192; 158]%N.
(** A message of two blocks whose CBC encryption with Speck32 has two equal blocks: their xor is that of the start value and the first block. *)
Example C56_cbc_equal : exists s0 s ct, cbc_create (speck_desc speck32) 0 demo_key [9]%N = Ok s0 /\ session (cbc_encrypt (speck_desc speck32)) s0 leak_pt s ct /\
  block 4 0 ct = block 4 1 ct.
Proof.
  destruct (ok_some (cbc_create (speck_desc speck32) 0 demo_key [9]%N) (fun s0 =>
    match cbc_encrypt (speck_desc speck32) s0 (leak_mem leak_pt) 0 100 8 with Ok (s1, m1) => bytes_eqb (block 4 0 (rd m1 100 8)) (block 4 1 (rd m1 100 8)) | _ => false end))
    as (s0 & E0 & H); [vm_compute; reflexivity|].
  apply ok_some in H. destruct H as ([s1 m1] & E1 & H). cbv beta iota in H.
  unfold bytes_eqb in H. destruct (list_eq_dec N.eq_dec _ _) as [H'|] in H; [|discriminate].
  exists s0, s1, (rd m1 100 8 ++ []). split; [exact E0|].
  split; [change leak_pt with (rd (leak_mem leak_pt) 0 8 ++ []); apply (ses_call (cbc_encrypt (speck_desc speck32)) s0 (leak_mem leak_pt) 0 100 8 s1 m1 [] s1 []);
    [right; cbn; repeat apply le_n_S; apply Nat.le_0_l|repeat constructor|exact E1|constructor]|].
  rewrite !app_nil_r. exact H'.
Qed.
(** Start values one apart: the CTR key stream of the second is that of the first, one block later. *)
Example C56_ctr_meet : exists s0 s0' s s' out out', ctr_create (speck_desc speck32) 0 demo_key [9; 0; 0; 0]%N = Ok s0 /\ ctr_create (speck_desc speck32) 0 demo_key [9; 0; 0; 1]%N = Ok s0' /\
  gsession (ctr_prng (speck_desc speck32)) s0 s out /\ gsession (ctr_prng (speck_desc speck32)) s0' s' out' /\ block 4 1 out = block 4 0 out' /\ length out = 8 /\ length out' = 4.
Proof.
  destruct (ok_some (ctr_create (speck_desc speck32) 0 demo_key [9; 0; 0; 0]%N) (fun s0 => match ctr_create (speck_desc speck32) 0 demo_key [9; 0; 0; 1]%N with Ok s0' =>
    match ctr_prng (speck_desc speck32) s0 (fun _ => 0%N) 100 8 with Ok (s1, m1) => match ctr_prng (speck_desc speck32) s0' (fun _ => 0%N) 100 4 with Ok (s2, m2) =>
      bytes_eqb (block 4 1 (rd m1 100 8)) (block 4 0 (rd m2 100 4)) | _ => false end | _ => false end | _ => false end)) as (s0 & E0 & H); [vm_compute; reflexivity|].
  apply ok_some in H. destruct H as (s0' & E0' & H). cbv beta iota in H. apply ok_some in H. destruct H as ([s1 m1] & E1 & H). cbv beta iota in H.
  apply ok_some in H. destruct H as ([s2 m2] & E2 & H). cbv beta iota in H.
  unfold bytes_eqb in H. destruct (list_eq_dec N.eq_dec _ _) as [H'|] in H; [|discriminate].
  exists s0, s0', s1, s2, (rd m1 100 8 ++ []), (rd m2 100 4 ++ []). split; [exact E0|]. split; [exact E0'|].
  split; [exact (gses_call _ _ _ _ _ _ _ _ _ E1 (gses_nil _ _))|]. split; [exact (gses_call _ _ _ _ _ _ _ _ _ E2 (gses_nil _ _))|].
  rewrite !app_nil_r. exact (conj H' (conj eq_refl eq_refl)).
Qed.
