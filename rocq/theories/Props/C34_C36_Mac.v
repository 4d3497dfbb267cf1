(** C34 verification, C35 splitting of the input, C36 which bytes of the key the Skein MACs use. *)
From Coq Require Import NArith Arith List Bool.
From Verif Require Import Lib.Res Lib.Bytes Spec.Mac Model.MacApi Model.Threefish Model.Skein Proof.MacP Proof.SkeinHashP Proof.SkeinMacP.
Import ListNotations.
Local Open Scope N_scope.

(** C34, kripto_mac_verify over every MAC: whenever the MAC outputs a tag [t] of the length of the presented one, verification
    answers non zero exactly for the tag [t]. *)
Theorem C34_mac_verify d (s s' : mc_st d) t tag : mac_tag d s (length tag) = Ok (s', t) -> length t = length tag -> bytes_ok t -> bytes_ok tag -> tag <> [] ->
  exists v, mac_verify d s tag = Ok (s', v) /\ (v <> 0 <-> tag = t).
Proof. exact (verify_tag d s s' t tag). Qed.
(** The empty tag: an array of length zero. *)
Theorem C34_empty_refuted d s : mac_verify d s [] = Err VlaZero.
Proof. reflexivity. Qed.
Print Assumptions C34_mac_verify. Print Assumptions C34_empty_refuted.
Example C34_mac_case : exists s s' t, mac_create (skein_mac threefish256) 0 (repeat 1 32) 4 = Ok s /\ mac_tag (skein_mac threefish256) s 4 = Ok (s', t) /\ length t = 4%nat /\
  forallb (fun b => b <? 256) t = true.
Proof. eexists _, _, _. split; [vm_compute; reflexivity|]. split; [vm_compute; reflexivity|]. split; reflexivity. Qed.

(** C35 *)
Theorem C35_skein p s parts lens : tag_of (skein_mac p) s parts lens = tag_of (skein_mac p) s [concat parts] lens.
Proof. exact (skein_mac_split p s parts lens). Qed.
Theorem C35_all d r key msg n : mac_all d r key msg n = tag_of d (mac_create d r key n) [msg] [n].
Proof. exact (all_is d r key msg n). Qed.
Print Assumptions C35_skein. Print Assumptions C35_all.
Example C35_case : exists t, tag_of (skein_mac threefish256) (mac_create (skein_mac threefish256) 0 (repeat 1 32) 4) [[1]; []; [2; 3]] [4%nat] = Ok t /\ length t = 4%nat.
Proof. eexists. split; [vm_compute; reflexivity|reflexivity]. Qed.

(** C36 fails in three ways.  Keys shorter than a block: create hashes memory that was never written. *)
Theorem C36_short_refuted p r key n : skein_par p -> (0 < length key < sk_bs p)%nat -> mac_create (skein_mac p) r key n = Err Uninit.
Proof. exact (skein_mac_uninit p r key n). Qed.
(** Keys of at most half a block: recreate ignores every byte of the key. *)
Theorem C36_recreate_refuted p s r key key' n : length key = length key' -> (2 * length key <= sk_bs p)%nat ->
  mac_recreate (skein_mac p) s r key n = mac_recreate (skein_mac p) s r key' n.
Proof. exact (skein_mac_short p s r key key' n). Qed.
(** Keys longer than a block: only the first block is used. *)
Theorem C36_long_refuted p r key key' n : length key = length key' -> firstn (sk_bs p) key = firstn (sk_bs p) key' ->
  mac_create (skein_mac p) r key n = mac_create (skein_mac p) r key' n.
Proof. exact (skein_mac_first p r key key' n). Qed.
Print Assumptions C36_short_refuted. Print Assumptions C36_recreate_refuted. Print Assumptions C36_long_refuted.
Example C36_case : exists s s', mac_create (skein_mac threefish256) 0 (repeat 7 40) 8 = Ok s /\ mac_recreate (skein_mac threefish256) s 0 [1; 2; 3] 8 = Ok s' /\
  mac_recreate (skein_mac threefish256) s 0 [4; 5; 6] 8 = Ok s' /\ firstn (sk_bs threefish256) (repeat 7 40) = firstn (sk_bs threefish256) (repeat 7 32 ++ repeat 8 8).
Proof. eexists _, _. split; [vm_compute; reflexivity|]. split; [vm_compute; reflexivity|]. split; [vm_compute; reflexivity|reflexivity]. Qed.
