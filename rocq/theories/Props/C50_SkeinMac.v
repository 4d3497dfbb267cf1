(** C50: the Skein MACs and Skein-MAC of Skein 1.3 (Spec/Skein.v). *)
From Coq Require Import NArith Arith List Bool.
From Verif Require Import Lib.Res Lib.Bytes Lib.WordsP Spec.Words Spec.Block Spec.Arx Spec.Hash Spec.Mac Spec.Skein Model.MacApi Model.Threefish Model.Skein Proof.SkeinP Proof.SkeinHashP Proof.SkeinMacP.
Import ListNotations.
Local Open Scope N_scope.

(** Keys of exactly one block, tags of at most one block (in any pieces), messages empty or not a whole number of blocks. *)
Theorem C50_skein256 key n : blk 32 key -> (n <= 32)%nat ->
  mac_computes (skein_mac threefish256) 0 key n (at_most n) (fun len => N.of_nat len < 2 ^ 96 /\ (len mod 32 <> 0 \/ len = 0)%nat) (skein256 key n).
Proof. exact (skein_mac_is threefish256 threefish256_cipher (or_introl eq_refl) spec256 key n). Qed.
Theorem C50_skein512 key n : blk 64 key -> (n <= 64)%nat ->
  mac_computes (skein_mac threefish512) 0 key n (at_most n) (fun len => N.of_nat len < 2 ^ 96 /\ (len mod 64 <> 0 \/ len = 0)%nat) (skein512 key n).
Proof. exact (skein_mac_is threefish512 threefish512_cipher (or_intror (or_introl eq_refl)) spec512 key n). Qed.
Theorem C50_skein1024 key n : blk 128 key -> (n <= 128)%nat ->
  mac_computes (skein_mac threefish1024) 0 key n (at_most n) (fun len => N.of_nat len < 2 ^ 96 /\ (len mod 128 <> 0 \/ len = 0)%nat) (skein1024 key n).
Proof. exact (skein_mac_is threefish1024 threefish1024_cipher (or_intror (or_intror eq_refl)) spec1024 key n). Qed.
(** For every message: the same with a block more after whole blocks; new objects and objects keyed again. *)
Theorem C50_skein256_all key n : blk 32 key -> (n <= 32)%nat -> let T := fun msg => skein_n 32 threefish256_cipher (S (length msg / 32)) key n msg in
  mac_computes (skein_mac threefish256) 0 key n (at_most n) (fun len => N.of_nat len < 2 ^ 96) T /\
  forall s, mac_gives (skein_mac threefish256) (mac_recreate (skein_mac threefish256) s 0 key n) (at_most n) (fun len => N.of_nat len < 2 ^ 96) T.
Proof. exact (fun Hk Hn => conj (skein_mac_computes threefish256 threefish256_cipher (or_introl eq_refl) spec256 key n Hk Hn)
  (fun s => skein_mac_regives threefish256 threefish256_cipher (or_introl eq_refl) spec256 s key n Hk Hn)). Qed.
Theorem C50_skein512_all key n : blk 64 key -> (n <= 64)%nat -> let T := fun msg => skein_n 64 threefish512_cipher (S (length msg / 64)) key n msg in
  mac_computes (skein_mac threefish512) 0 key n (at_most n) (fun len => N.of_nat len < 2 ^ 96) T /\
  forall s, mac_gives (skein_mac threefish512) (mac_recreate (skein_mac threefish512) s 0 key n) (at_most n) (fun len => N.of_nat len < 2 ^ 96) T.
Proof. exact (fun Hk Hn => conj (skein_mac_computes threefish512 threefish512_cipher (or_intror (or_introl eq_refl)) spec512 key n Hk Hn)
  (fun s => skein_mac_regives threefish512 threefish512_cipher (or_intror (or_introl eq_refl)) spec512 s key n Hk Hn)). Qed.
Theorem C50_skein1024_all key n : blk 128 key -> (n <= 128)%nat -> let T := fun msg => skein_n 128 threefish1024_cipher (S (length msg / 128)) key n msg in
  mac_computes (skein_mac threefish1024) 0 key n (at_most n) (fun len => N.of_nat len < 2 ^ 96) T /\
  forall s, mac_gives (skein_mac threefish1024) (mac_recreate (skein_mac threefish1024) s 0 key n) (at_most n) (fun len => N.of_nat len < 2 ^ 96) T.
Proof. exact (fun Hk Hn => conj (skein_mac_computes threefish1024 threefish1024_cipher (or_intror (or_intror eq_refl)) spec1024 key n Hk Hn)
  (fun s => skein_mac_regives threefish1024 threefish1024_cipher (or_intror (or_intror eq_refl)) spec1024 s key n Hk Hn)). Qed.
Print Assumptions C50_skein256. Print Assumptions C50_skein512. Print Assumptions C50_skein1024.
Print Assumptions C50_skein256_all. Print Assumptions C50_skein512_all. Print Assumptions C50_skein1024_all.
Example C50_case : (exists t, mac_all (skein_mac threefish256) 0 (repeat 5 32) [1; 2; 3] 16 = Ok t /\ length t = 16%nat) /\ N.of_nat 3 < 2 ^ 96 /\ (3 mod 32 <> 0 \/ 3 = 0)%nat.
Proof. split; [eexists; split; [vm_compute; reflexivity|reflexivity]|]. split; [reflexivity|]. left. vm_compute. discriminate. Qed.

(** Whole blocks, and other key lengths, give something else. *)
Theorem C50_blocks_refuted : exists m, length m = 32%nat /\ mac_all (skein_mac threefish256) 0 (repeat 0 32) m 16 <> Ok (skein256 (repeat 0 32) 16 m).
Proof. exists (repeat 0 32). split; [reflexivity|]. vm_compute. discriminate. Qed.
Theorem C50_key_refuted : mac_all (skein_mac threefish256) 0 (repeat 0 32 ++ [1]) [] 16 <> Ok (skein256 (repeat 0 32 ++ [1]) 16 []).
Proof. vm_compute. discriminate. Qed.
Print Assumptions C50_blocks_refuted. Print Assumptions C50_key_refuted.
