(** Where the modes differ from their definitions: CFB decryption and the CTR counter. *)
From Coq Require Import NArith Arith List Bool Lia.
From Verif Require Import Lib.Word Lib.Res Lib.Bytes Spec.Block Spec.Cipher Spec.Modes Model.BlockApi Model.Mem Model.Modes
  Model.Ciphers Model.Speck.
Import ListNotations.
Local Open Scope nat_scope.

Lemma ok_some {A} (r : res A) (P : A -> bool) : match r with Ok x => P x | Err _ => false end = true ->
  exists x, r = Ok x /\ P x = true.
Proof. destruct r as [x|e]; [eauto|discriminate]. Qed.
Definition bytes_eqb (a b : list N) : bool := if list_eq_dec N.eq_dec a b then true else false.
Lemma bytes_eqb_false a b : negb (bytes_eqb a b) = true -> a <> b.
Proof. unfold bytes_eqb. destruct (list_eq_dec N.eq_dec a b); [discriminate|auto]. Qed.

Notation sp := (speck_desc speck32).
Definition demo_key : list N := [1; 2; 3; 4; 5; 6; 7; 8]%N.
Definition demo_mem : mem := fun x => N.of_nat (x mod 256).

(** two blocks encrypted and decrypted with CFB do not come back *)
Lemma cfb_dec_refuted : exists s0 s1 m1 s2 m2, fb_create sp 0 demo_key [] = Ok s0 /\
  cfb_encrypt sp s0 demo_mem 0 100 8 = Ok (s1, m1) /\
  cfb_decrypt sp s0 m1 100 200 8 = Ok (s2, m2) /\ rd m2 200 8 <> rd demo_mem 0 8.
Proof.
  destruct (ok_some (fb_create sp 0 demo_key [])
    (fun s0 => match cfb_encrypt sp s0 demo_mem 0 100 8 with
      | Ok (s1, m1) => match cfb_decrypt sp s0 m1 100 200 8 with
         | Ok (s2, m2) => negb (bytes_eqb (rd m2 200 8) (rd demo_mem 0 8)) | Err _ => false end
      | Err _ => false end)) as (s0 & E0 & H); [vm_compute; reflexivity|].
  apply ok_some in H. destruct H as ([s1 m1] & E1 & H). cbv beta iota in H.
  apply ok_some in H. destruct H as ([s2 m2] & E2 & H). cbv beta iota in H. apply bytes_eqb_false in H.
  exists s0, s1, m1, s2, m2. auto.
Qed.
(** decrypting one byte writes a whole block *)
Lemma cfb_dec_frame_refuted : exists s0 s2 m2, fb_create sp 0 demo_key [] = Ok s0 /\
  cfb_decrypt sp s0 demo_mem 0 100 1 = Ok (s2, m2) /\ ~ frame demo_mem m2 100 1.
Proof.
  destruct (ok_some (fb_create sp 0 demo_key [])
    (fun s0 => match cfb_decrypt sp s0 demo_mem 0 100 1 with
         | Ok (s2, m2) => negb (bytes_eqb (rd m2 101 3) (rd demo_mem 101 3)) | Err _ => false end)) as (s0 & E0 & H); [vm_compute; reflexivity|].
  apply ok_some in H. destruct H as ([s2 m2] & E2 & H). cbv beta iota in H. apply bytes_eqb_false in H.
  exists s0, s2, m2. split; [exact E0|]. split; [exact E2|]. intros F. apply H.
  unfold rd. apply map_ext_in. intros i Hi. apply in_seq in Hi. apply F. lia.
Qed.
(** in place decryption of one block fails too *)
Lemma cfb_dec_inplace_refuted : exists s0 s1 m1 s2 m2, fb_create sp 0 demo_key [] = Ok s0 /\
  cfb_encrypt sp s0 demo_mem 0 0 4 = Ok (s1, m1) /\
  cfb_decrypt sp s0 m1 0 0 4 = Ok (s2, m2) /\ rd m2 0 4 <> rd demo_mem 0 4.
Proof.
  destruct (ok_some (fb_create sp 0 demo_key [])
    (fun s0 => match cfb_encrypt sp s0 demo_mem 0 0 4 with
      | Ok (s1, m1) => match cfb_decrypt sp s0 m1 0 0 4 with
         | Ok (s2, m2) => negb (bytes_eqb (rd m2 0 4) (rd demo_mem 0 4)) | Err _ => false end
      | Err _ => false end)) as (s0 & E0 & H); [vm_compute; reflexivity|].
  apply ok_some in H. destruct H as ([s1 m1] & E1 & H). cbv beta iota in H.
  apply ok_some in H. destruct H as ([s2 m2] & E2 & H). cbv beta iota in H. apply bytes_eqb_false in H.
  exists s0, s1, m1, s2, m2. auto.
Qed.
(** the carry never reaches the first byte of the counter *)
Lemma ctr_carry_refuted : exists st s0 s1 m1, bc_create sp 0 demo_key = Ok st /\
  ctr_create sp 0 demo_key [0; 255; 255; 255]%N = Ok s0 /\
  ctr_prng sp s0 demo_mem 100 8 = Ok (s1, m1) /\
  rd m1 100 8 <> map (ctr_ks 4 (fn (bc_enc sp st)) [0; 255; 255; 255]%N) (seq 0 8).
Proof.
  destruct (ok_some (bc_create sp 0 demo_key) (fun st =>
     match ctr_create sp 0 demo_key [0; 255; 255; 255]%N with Ok s0 =>
       match ctr_prng sp s0 demo_mem 100 8 with
         | Ok (s2, m2) => negb (bytes_eqb (rd m2 100 8) (map (ctr_ks 4 (fn (bc_enc sp st)) [0; 255; 255; 255]%N) (seq 0 8)))
         | Err _ => false end | Err _ => false end)) as (st & E & H); [vm_compute; reflexivity|].
  apply ok_some in H. destruct H as (s0 & E0 & H). cbv beta iota in H.
  apply ok_some in H. destruct H as ([s2 m2] & E2 & H). cbv beta iota in H. apply bytes_eqb_false in H.
  exists st, s0, s2, m2. auto.
Qed.
Lemma ctr_session_demo : exists s0 s out, ctr_create sp 0 demo_key [9%N] = Ok s0 /\
  session (ctr_crypt sp) s0 [0; 1; 2; 7; 8]%N s out /\ length out = 5.
Proof.
  destruct (ok_some (ctr_create sp 0 demo_key [9%N]) (fun s0 =>
    match ctr_crypt sp s0 demo_mem 0 0 3 with Ok (s1, _) =>
      match ctr_crypt sp s1 demo_mem 7 100 2 with Ok _ => true | _ => false end | _ => false end)) as (s0 & E0 & H); [vm_compute; reflexivity|].
  apply ok_some in H. destruct H as ([s1 m1] & E1 & H). cbv beta iota in H.
  apply ok_some in H. destruct H as ([s2 m2] & E2 & _).
  exists s0, s2, (rd m1 0 3 ++ rd m2 100 2 ++ []). split; [exact E0|]. split; [|reflexivity].
  change [0; 1; 2; 7; 8]%N with (rd demo_mem 0 3 ++ rd demo_mem 7 2 ++ []).
  econstructor; [left; lia|repeat constructor|exact E1|]. econstructor; [right; lia|repeat constructor|exact E2|]. constructor.
Qed.
