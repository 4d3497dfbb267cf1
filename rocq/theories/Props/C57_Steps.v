(** C57: which places are read and written and which way branches go.  The programs of Model/StepCode.v are the functions statement by statement
    (language and steps: Spec/Steps.v); every theorem also says that the program computes the model of the function, on which the other properties are. *)
From Coq Require Import NArith Arith List Bool Lia.
From Verif Require Import Lib.Word Lib.Res Spec.Steps Model.Mem Model.Util Model.Speck Model.Chacha Model.Salsa20 Model.Rc4 Model.Idea Model.LoadStore Model.Rijndael Model.StepCode
  Proof.StepsMemP Proof.StepsSpeckP Proof.StepsCoreP Proof.StepsMoreP Proof.StepsRunP Proof.StepsAesP.
Import ListNotations.
Local Open Scope nat_scope.

(** kripto_memory_equals: one list of steps [t] for all buffers of a length *)
Theorem C57_equals len : (N.of_nat len < 2 ^ 64)%N -> exists t, forall s, vars s 2 = N.of_nat len ->
  exists s', exec (S len) equals_code s = Some (s', t, false) /\
    forall m a b, (forall i, i < len -> arrs s 0 i = m (a + i) /\ arrs s 1 i = m (b + i)) -> vars s' 3 = memory_equals m a b len.
Proof. exact (equals_fixed len). Qed.
(** kripto_memory_wipe *)
Theorem C57_wipe len : (N.of_nat len < 2 ^ 64)%N -> exists t, forall s, vars s 0 = N.of_nat len ->
  exists s', exec (S len) wipe_code s = Some (s', t, false) /\
    forall m dst, (forall i, arrs s 0 i = m (dst + i)) -> forall i, arrs s' 0 i = memory_wipe m dst len (dst + i).
Proof. exact (wipe_fixed len). Qed.
(** a block of Speck: for all keys and all blocks *)
Theorem C57_speck p (enc : bool) r : p = speck32 \/ p = speck64 \/ p = speck128 -> (N.of_nat r < 2 ^ 32)%N ->
  exists t, forall s, vars s 3 = N.of_nat r /\ (forall i, (arrs s 1 i < 256)%N) ->
    exists s', exec (S r) (if enc then spk_enc p else spk_dec p) s = Some (s', t, false) /\
      (if enc then speck_encrypt p else speck_decrypt p) {| speck_rounds := N.of_nat r; speck_ks := map (arrs s 0) (seq 0 r) |} (map (arrs s 1) (seq 0 (2 * sp_k p))) =
        Ok (map (arrs s' 2) (seq 0 (2 * sp_k p))).
Proof. intros Hp. exact (spk_fixed p Hp enc r). Qed.
(** a block of ChaCha and of Salsa20: for all keys, counters and nonces *)
Theorem C57_chacha r : (N.of_nat r < 2 ^ 32)%N -> exists t, forall s, vars s 17 = N.of_nat r ->
  exists s', exec (S r) (core_code cc_qr_code cc_columns cc_diagonals) s = Some (s', t, false) /\
    map (arrs s' 1) (seq 0 64) = cc_core (N.of_nat r) (map (arrs s 0) (seq 0 16)).
Proof. exact (chacha_fixed r). Qed.
Theorem C57_salsa20 r : (N.of_nat r < 2 ^ 32)%N -> exists t, forall s, vars s 17 = N.of_nat r ->
  exists s', exec (S r) (core_code s20_qr_code s20_columns s20_rows) s = Some (s', t, false) /\
    map (arrs s' 1) (seq 0 64) = s20_core (N.of_nat r) (map (arrs s 0) (seq 0 16)).
Proof. exact (salsa_fixed r). Qed.
(** RC4: the places depend on the secret table *)
Theorem C57_rc4_computes fuel s : exists s' t, exec fuel rc4_code s = Some (s', t, false) /\
  rc4_next {| rc4_p := map (arrs s 0) (seq 0 256); rc4_i := vars s 0; rc4_j := vars s 1 |} =
    Ok ({| rc4_p := map (arrs s' 0) (seq 0 256); rc4_i := vars s' 0; rc4_j := vars s' 1 |}, vars s' 3).
Proof. destruct (rc4_runs fuel s) as (s' & [t E] & H). exact (ex_intro _ s' (ex_intro _ t (conj E H))). Qed.
Theorem C57_rc4_refuted fuel : exists s s', vars s = vars s' /\
  (forall v, v < 256 -> (exists i, i < 256 /\ arrs s 0 i = N.of_nat v) /\ (exists i, i < 256 /\ arrs s' 0 i = N.of_nat v)) /\
  steps_of (exec fuel rc4_code s) <> steps_of (exec fuel rc4_code s').
Proof. exact (rc4_table_seen fuel). Qed.
(** IDEA: the one branch of a multiplication shows whether a factor is zero, and nothing else is seen *)
Theorem C57_idea_mul fuel s : (vars s 0 < 2 ^ 16)%N -> (vars s 1 < 2 ^ 16)%N ->
  exists s', exec fuel mul_code s = Some (s', [Goes (negb ((vars s 0 =? 0) || (vars s 1 =? 0))%N)], false) /\ vars s' 3 = idea_mul (vars s 0) (vars s 1).
Proof. exact (mul_runs fuel s). Qed.
(** kripto_pkcs7_rem: whether the last byte is below the length is seen *)
Theorem C57_pkcs7 fuel s : (0 < vars s 0 < 2 ^ 64)%N -> (forall i, (arrs s 0 i < 256)%N) ->
  exists s', let n := N.to_nat (vars s 0 - 1) in let b := (arrs s 0 n <? vars s 0)%N in
    exec fuel rem_code s = Some (s', Reads 0 n :: Goes b :: (if b then [Reads 0 n] else []), false) /\
    forall m buf, (forall i, i <= n -> arrs s 0 i = m (buf + i)) -> pkcs7_rem m buf (vars s 0) = Ok (vars s' 1).
Proof. exact (rem_runs fuel s). Qed.
(** AES (Rijndael with blocks of 128 bits, any number of rounds): the tables are in the arrays 1-5, the block in 6, the round keys in 0 *)
Definition aes_ready (r : nat) (s : state) : Prop :=
  (forall i, arrs s 1 i = nth i rj_te0 0%N /\ arrs s 2 i = nth i rj_te1 0%N /\ arrs s 3 i = nth i rj_te2 0%N /\ arrs s 4 i = nth i rj_te3 0%N /\ arrs s 5 i = nth i rj_te4 0%N) /\
  vars s 9 = N.of_nat r /\ forall i, (arrs s 6 i < 256)%N.
Theorem C57_aes_computes r s : (N.of_nat (S r) < 2 ^ 30)%N -> 1 <= r -> aes_ready r s -> exists s' t, exec r aes_code s = Some (s', t, false) /\
  rijndael128_encrypt {| rj_r := N.of_nat r; rj_k := map (arrs s 0) (seq 0 (4 * S r)); rj_dk := [] |} (map (arrs s 6) (seq 0 16)) = Ok (map (arrs s' 7) (seq 0 16)).
Proof. intros Hr H1 H. destruct (aes_runs r s Hr H1 H) as (s' & [t E] & R). exact (ex_intro _ s' (ex_intro _ t (conj E R))). Qed.
(** the steps of a block show the xor of the block and the first round key; the first round key of AES-128 is the key *)
Theorem C57_aes_shows r s s' : 2 <= r -> (N.of_nat (S r) < 2 ^ 30)%N -> aes_ready r s -> aes_ready r s' ->
  (forall i, i < 4 -> (arrs s 0 i < 2 ^ 32)%N /\ (arrs s' 0 i < 2 ^ 32)%N) ->
  steps_of (exec r aes_code s) = steps_of (exec r aes_code s') ->
  forall j, j < 4 -> N.lxor (load32b (map (arrs s 6) (seq 0 16)) (4 * j)) (arrs s 0 j) = N.lxor (load32b (map (arrs s' 6) (seq 0 16)) (4 * j)) (arrs s' 0 j).
Proof. exact (aes_shows r s s'). Qed.
Print Assumptions C57_aes_computes. Print Assumptions C57_aes_shows.
Print Assumptions C57_equals. Print Assumptions C57_wipe. Print Assumptions C57_speck. Print Assumptions C57_chacha. Print Assumptions C57_salsa20.
Print Assumptions C57_rc4_computes. Print Assumptions C57_rc4_refuted. Print Assumptions C57_idea_mul. Print Assumptions C57_pkcs7.

(** the steps of comparing two bytes, whether they are equal or not *)
Definition two (f : nat -> nat -> N) : state := {| vars := fun _ => 2%N; arrs := f |}.
Example C57_equals_case : steps_of (exec 3 equals_code (two (fun _ _ => 5%N))) =
    [Goes true; Reads 0 0; Reads 1 0; Goes true; Reads 0 1; Reads 1 1; Goes false] /\
  steps_of (exec 3 equals_code (two (fun a i => N.of_nat (a + i)))) = steps_of (exec 3 equals_code (two (fun _ _ => 5%N))).
Proof. split; vm_compute; reflexivity. Qed.
(** a block of Speck32 takes the same steps with two keys, and gives two results *)
Definition spk (k : N) : state := {| vars := fun _ => 22%N; arrs := fun a i => match a with O => k | _ => N.of_nat i end |}.
Definition spk_result (r : result) : list N := match r with Some (s, _, _) => map (arrs s 2) (seq 0 4) | None => [] end.
Example C57_speck_case : steps_of (exec 23 (spk_enc speck32) (spk 7)) = steps_of (exec 23 (spk_enc speck32) (spk 8)) /\
  spk_result (exec 23 (spk_enc speck32) (spk 7)) <> spk_result (exec 23 (spk_enc speck32) (spk 8)) /\ length (steps_of (exec 23 (spk_enc speck32) (spk 7))) = 53.
Proof. split; [vm_compute; reflexivity|]. split; [vm_compute; discriminate|vm_compute; reflexivity]. Qed.
Example C57_idea_case : steps_of (exec 0 mul_code (two (fun _ _ => 0%N))) = [Goes true] /\ idea_mul 2 2 = 4%N.
Proof. split; reflexivity. Qed.
(** AES with ten rounds, one block and two keys: the steps differ *)
Definition aes_two (k : N) : state := {| vars := fun _ => 10%N; arrs := fun a i => match a with
  | 0 => k | 1 => nth i rj_te0 0%N | 2 => nth i rj_te1 0%N | 3 => nth i rj_te2 0%N | 4 => nth i rj_te3 0%N | 5 => nth i rj_te4 0%N | _ => 7%N end |}.
Lemma aes_two_ready k : aes_ready 10 (aes_two k).
Proof. split; [|split; [reflexivity|intros i; reflexivity]]. intros i. repeat (split; [exact eq_refl|]). exact eq_refl. Qed.
Lemma xor_ne x : N.lxor x 1 = N.lxor x 2 -> False.
Proof. intros H. apply (f_equal (N.lxor x)) in H. rewrite <- !N.lxor_assoc, N.lxor_nilpotent in H. discriminate. Qed.
Example C57_aes_case : steps_of (exec 10 aes_code (aes_two 1)) <> steps_of (exec 10 aes_code (aes_two 2)).
Proof.
  intros E. apply (C57_aes_shows 10 (aes_two 1) (aes_two 2)) with (j := 0) in E; [|lia|reflexivity|apply aes_two_ready|apply aes_two_ready|intros i _; split; reflexivity|lia].
  exact (xor_ne _ E).
Qed.
