(** C23 - C25: splitting of input and output, recreate and hash_all, for every hash of the library.
    [hash_use d r salt n cap okm] (Spec/Hashes.v) lists the hashes with the arguments they work with; Skein follows below. *)
From Coq Require Import NArith Arith List Bool.
From Verif Require Import Lib.Res Lib.Bytes Spec.Words Spec.Modes Spec.Hash Spec.Hashes Model.HashApi Model.Sha2 Model.Keccak Model.Blake Model.Threefish Model.Skein
  Proof.HashesP Proof.SkeinHashP.
Import ListNotations.
Local Open Scope N_scope.

Theorem C23_input_split d r salt n cap okm : hash_use d r salt n cap okm -> input_split_free d r salt n cap okm.
Proof. exact (use_input d r salt n cap okm). Qed.
Theorem C24_output_split d r salt n cap okm : hash_use d r salt n cap okm -> output_split_free d r salt n cap okm.
Proof. exact (use_output d r salt n cap okm). Qed.
Theorem C25_reuse d r salt n cap okm : hash_use d r salt n cap okm -> reuse_free d r salt n cap okm.
Proof. exact (use_reuse d r salt n cap okm). Qed.
Print Assumptions C23_input_split. Print Assumptions C24_output_split. Print Assumptions C25_reuse.
(** BLAKE2b with salt, and chunks of which one is empty and one longer than two blocks *)
Example C23_case : hash_use hash_blake2b 0 [1; 2; 3] 64 64 (fun len => N.of_nat len < 2 ^ 128) /\
  Forall bytes_ok [repeat 5 300; []; [1; 2]] /\ N.of_nat (length (concat [repeat 5 300; []; [1; 2]])) < 2 ^ 128 /\ (list_sum [3; 0; 61] <= 64)%nat.
Proof.
  split; [constructor; [repeat constructor|apply Nat.leb_le; reflexivity..]|]. split; [repeat constructor|]. split; [reflexivity|]. apply Nat.leb_le. reflexivity.
Qed.

(** Skein.  The input may be split in any way, whatever the other arguments are; the results agree even when the library aborts. *)
Theorem C23_skein p r salt n parts lens :
  digest (skein_hash p) (hash_create (skein_hash p) r salt n) parts lens = digest (skein_hash p) (hash_create (skein_hash p) r salt n) [concat parts] lens.
Proof. exact (skein_input_split p r salt n parts lens). Qed.
(** The output may be split at multiples of the block size ... *)
Theorem C24_skein p r n parts js k : skein_par p -> N.of_nat n < 2 ^ 32 -> Forall bytes_ok parts -> N.of_nat (length (concat parts)) < 2 ^ 96 ->
  let lens := map (fun j => j * sk_bs p)%nat js ++ [k] in (list_sum lens <= n)%nat ->
  exists o, length o = list_sum lens /\ digest (skein_hash p) (hash_create (skein_hash p) r [] n) parts [list_sum lens] = Ok o /\
    digest (skein_hash p) (hash_create (skein_hash p) r [] n) parts lens = Ok o.
Proof. exact (skein_output_blocks p r n parts js k). Qed.
(** ... and in between the program aborts: the block sized digest cannot be read in two pieces. *)
Theorem C24_skein_refuted p r parts a b : skein_par p -> Forall bytes_ok parts -> N.of_nat (length (concat parts)) < 2 ^ 96 ->
  (0 < a)%nat -> (0 < b)%nat -> (a + b <= sk_bs p)%nat ->
  digest (skein_hash p) (hash_create (skein_hash p) r [] (sk_bs p)) parts [a; b] = Err AssertFail.
Proof. exact (skein_output_aborts p r parts a b). Qed.
(** recreate is create, hash_all is create, input and output *)
Theorem C25_skein p s r salt n : skein_par p -> hash_recreate (skein_hash p) s r salt n = hash_create (skein_hash p) r salt n.
Proof. exact (skein_recreate p s r salt n). Qed.
Theorem C25_skein_all p r salt l n : hash_all (skein_hash p) r salt l n = digest (skein_hash p) (hash_create (skein_hash p) r salt n) [l] [n].
Proof. exact (skein_all p r salt l n). Qed.
Print Assumptions C23_skein. Print Assumptions C24_skein. Print Assumptions C24_skein_refuted. Print Assumptions C25_skein. Print Assumptions C25_skein_all.
Example C24_skein_case : skein_par threefish512 /\ (list_sum (map (fun j => j * sk_bs threefish512) [1; 0; 2] ++ [7]) <= 200)%nat /\ (1 + 63 <= sk_bs threefish512)%nat.
Proof. split; [right; left; reflexivity|]. split; apply Nat.leb_le; reflexivity. Qed.
