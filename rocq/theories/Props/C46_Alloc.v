(** C46: allocation failure, for every pattern of failing calls of malloc.  [safe_life k l] (Spec/Heap.v): an object of kind [k] that is created, used as in [l] and
    destroyed touches no freed object, frees none twice and leaves nothing behind, also if create or recreate return NULL, which they do not without need.
    [Again] in [l] stands for recreate, which may replace component objects or not ([block_kinds]) as it likes. *)
From Coq Require Import Arith List Bool.
From Verif Require Import Lib.Res Model.Heap Spec.Heap Proof.HeapP Proof.HeapKindsP Proof.HeapLifeP Proof.HeapLeakP.
Import ListNotations.

(** a heap without objects *)
Definition bare (fails renews : nat -> bool) : heap := {| hp_cell := fun _ => None; hp_next := 1; hp_fails := fails; hp_renews := renews |}.
Lemma bare_ok f r : heap_ok (bare f r).
Proof. split; [exact (le_n 1)|]. split; [reflexivity|]. intros a _. reflexivity. Qed.
Definition leaves {A} (p : prog A) (f : nat -> bool) (a : nat) : bool := match p (bare f (fun _ => false)) with Ok (_, h) => match hp_cell h a with Some _ => true | None => false end | Err _ => false end.
Lemma leaves_leaks {A} (p : prog A) f a : leaves p f a = true -> leaks p.
Proof.
  unfold leaves. destruct (p _) as [[r h]|e] eqn:E; [|discriminate]. destruct (hp_cell h a) eqn:Ea; [|discriminate]. intros _.
  exists (bare f (fun _ => false)), r, h, a. split; [apply bare_ok|]. split; [exact E|]. split; [reflexivity|]. rewrite Ea. discriminate.
Qed.

(** Stream modes and ciphers, hashes, and the MACs *)
Theorem C46_streams k : In k stream_kinds -> forall l, safe_life k l.
Proof. intros H l. exact (sound_safe k l (stream_sound k H)). Qed.
Theorem C46_hashes k : In k hash_kinds -> forall l, safe_life k l.
Proof. intros H l. exact (sound_safe k l (in_place_sound k (hash_sip k H))). Qed.
Theorem C46_macs k : In k mac_kinds -> forall l, safe_life k l.
Proof. intros H l. exact (sound_safe k l (mac_sound k H)). Qed.
(** the third allocation of HMAC over Skein fails: nothing remains *)
Example C46_macs_example : match life (hmac_kind (skein_kind plain) (Some (skein_all plain))) [Use; Again; Tag] (bare (fun n => n =? 2) (fun _ => false)) with
  | Ok (r, h) => (r, map (hp_cell h) (seq 0 5)) = (false, [None; None; None; None; None]) | Err _ => False end.
Proof. vm_compute. reflexivity. Qed.
(** and without failures it lives to its end *)
Example C46_macs_example' : match life (hmac_kind (skein_kind plain) (Some (skein_all plain))) [Use; Again; Tag] (bare (fun _ => false) (fun _ => false)) with
  | Ok (r, h) => (r, hp_next h) = (true, 6) | Err _ => False end.
Proof. vm_compute. reflexivity. Qed.

(** EAX and EAX2, unless they are created again; and with that as long as no allocation fails.  EAX2 created again for a longer tag is safe. *)
Theorem C46_eax_partial b : In b block_kinds -> forall l, (~ In Again l -> safe_life (eax_kind b) l) /\ succeeds (life (eax_kind b) l).
Proof. intros H l. exact (conj (half_safe _ l (eax_half b (block_sound b H))) (half_succeeds _ l (eax_half b (block_sound b H)))). Qed.
Theorem C46_eax2_partial st mac : In st stream_kinds -> In mac mac_kinds -> forall l, (~ In Again l -> safe_life (eax2_kind st mac false) l) /\ succeeds (life (eax2_kind st mac false) l).
Proof. intros H1 H2 l. exact (conj (half_safe _ l (eax2_half st mac (stream_sound st H1) (mac_sound mac H2))) (half_succeeds _ l (eax2_half st mac (stream_sound st H1) (mac_sound mac H2)))). Qed.
Theorem C46_eax2_longer st mac : In st stream_kinds -> In mac mac_kinds -> forall l, safe_life (eax2_kind st mac true) l.
Proof. intros H1 H2 l. exact (sound_safe _ l (eax2_sound st mac (stream_sound st H1) (mac_sound mac H2))). Qed.
Example C46_eax_example : match life (eax_kind renewing) [Use; Tag] (bare (fun n => n =? 9) (fun _ => true)) with
  | Ok (r, h) => (r, forallb (fun a => match hp_cell h a with None => true | _ => false end) (seq 0 12)) = (false, true) | Err _ => False end.
Proof. vm_compute. reflexivity. Qed.
(** What is missing is false: on failure eax_recreate (eax.c:245-254) frees the object without its components, and eax2_recreate (eax2.c:257-264) too. *)
Theorem C46_eax_recreate_refuted : leaks (life (eax_kind plain) [Again]).
Proof. apply (leaves_leaks _ (fun n => n =? 10) 5). vm_compute. reflexivity. Qed.
Theorem C46_eax2_recreate_refuted : leaks (life (eax2_kind (mode_kind plain) (omac_kind plain) false) [Again]).
Proof. apply (leaves_leaks _ (fun n => n =? 8) 3). vm_compute. reflexivity. Qed.
(** Losing objects is all that goes wrong: nothing is used or freed after it was freed, whichever allocations fail. *)
Theorem C46_eax_quiet b : In b block_kinds -> forall l, quiet (life (eax_kind b) l).
Proof. intros H l. exact (eax_quiet b l (block_sound b H)). Qed.
Theorem C46_eax2_quiet st mac : In st stream_kinds -> In mac mac_kinds -> forall l, quiet (life (eax2_kind st mac false) l).
Proof. intros H1 H2 l. exact (eax2_quiet st mac l (stream_sound st H1) (mac_sound mac H2)). Qed.
(** the CTR object cannot be created anew: EAX is gone, and the OMAC object of the header with its cipher (10 and 11) remain *)
Example C46_eax_quiet_example : match life (eax_kind renewing) [Again; Use] (bare (fun n => n =? 14) (fun _ => true)) with
  | Ok (r, h) => (r, filter (fun a => match hp_cell h a with None => false | _ => true end) (seq 0 (hp_next h))) = (false, [10; 11]) | Err _ => False end.
Proof. vm_compute. reflexivity. Qed.

(** kripto_mac_all and scrypt; PBKDF2 for one iteration, for MACs whose recreate does not allocate, and as long as no allocation fails *)
Theorem C46_mac_all k : In k mac_kinds -> clean (mac_all k) /\ succeeds (mac_all k).
Proof. intros H. exact (mac_all_both k (mac_sound k H)). Qed.
Theorem C46_scrypt k : In k mac_kinds -> forall b1 b2, clean (scrypt_heap k b1 b2) /\ succeeds (scrypt_heap k b1 b2).
Proof. intros H b1 b2. exact (scrypt_both k b1 b2 (mac_sound k H)). Qed.
Theorem C46_pbkdf2_one k : In k mac_kinds -> forall blocks, clean (pbkdf2_heap k 1 blocks).
Proof. intros H n. exact (proj1 (pbkdf2_one k n (mac_sound k H))). Qed.
Theorem C46_pbkdf2_partial k : In k steady_macs -> forall iter blocks, clean (pbkdf2_heap k iter blocks).
Proof. intros H iter n. exact (pbkdf2_steady k iter n (steady_sip k H)). Qed.
Theorem C46_pbkdf2_succeeds k : In k mac_kinds -> forall iter blocks, succeeds (pbkdf2_heap k iter blocks).
Proof. intros H iter n. exact (pbkdf2_plenty k iter n (mac_sound k H)). Qed.
Example C46_pbkdf2_example : match pbkdf2_heap (hmac_kind plain None) 3 2 (bare (fun _ => false) (fun _ => false)) with Ok (r, h) => (r, hp_next h) = (true, 4) | Err _ => False end.
Proof. vm_compute. reflexivity. Qed.
(** pbkdf2.c:78 looks at mac instead of m: after a failed recreate NULL is used.  HMAC over Skein with a password longer than a block allocates. *)
Theorem C46_pbkdf2_refuted : exists k, In k mac_kinds /\ breaks AssertFail (pbkdf2_heap k 2 1).
Proof.
  exists (hmac_kind (skein_kind plain) (Some (skein_all plain))). split; [cbn; tauto|]. exists (bare (fun n => n =? 5) (fun _ => false)). split; [apply bare_ok|vm_compute; reflexivity].
Qed.

(** Block ciphers that read their descriptor after they freed themselves (xtea.c:146 and others, C05) use freed memory when they are created again, and so do the
    objects over them; XCBC already when it is created. *)
Theorem C46_stale_refuted : breaks UseAfterFree (life stale [Again]) /\ breaks UseAfterFree (life (mode_kind stale) [Again]) /\ breaks UseAfterFree (life (omac_kind stale) [Again]) /\
  breaks UseAfterFree (life (xcbc_kind stale) []) /\ breaks UseAfterFree (life (eax_kind stale) []).
Proof. repeat split; exists (bare (fun _ => false) (fun _ => true)); (split; [apply bare_ok|vm_compute; reflexivity]). Qed.
(** block/gost.c:206 writes to NULL. *)
Theorem C46_gost_desc_refuted : breaks NullRet gost_desc_heap.
Proof. exists (bare (fun _ => true) (fun _ => false)). split; [apply bare_ok|vm_compute; reflexivity]. Qed.
(** The random generator without new seeds is all right if nothing fails; every new seed loses a MAC descriptor, and so does a failed creation. *)
Theorem C46_random mac b1 b2 : In mac mac_kinds -> forall l, (~ In true l -> succeeds (rn_life mac b1 b2 l)) /\ (In true l -> always_leaks (rn_life mac b1 b2 l)).
Proof. intros H l. exact (conj (rn_succeeds mac b1 b2 (mac_sound mac H) l) (rn_always_leaks mac b1 b2 (mac_sound mac H) l)). Qed.
Theorem C46_random_create_refuted mac b1 b2 : mac = hmac_kind plain None -> leaks (rn_create_heap mac b1 b2).
Proof. intros ->. apply (leaves_leaks _ (fun n => n =? 2) 2). vm_compute. reflexivity. Qed.

Print Assumptions C46_streams.
Print Assumptions C46_hashes.
Print Assumptions C46_macs.
Print Assumptions C46_eax_partial.
Print Assumptions C46_eax2_partial.
Print Assumptions C46_eax2_longer.
Print Assumptions C46_eax_recreate_refuted.
Print Assumptions C46_eax2_recreate_refuted.
Print Assumptions C46_eax_quiet.
Print Assumptions C46_eax2_quiet.
Print Assumptions C46_mac_all.
Print Assumptions C46_scrypt.
Print Assumptions C46_pbkdf2_one.
Print Assumptions C46_pbkdf2_partial.
Print Assumptions C46_pbkdf2_succeeds.
Print Assumptions C46_pbkdf2_refuted.
Print Assumptions C46_stale_refuted.
Print Assumptions C46_gost_desc_refuted.
Print Assumptions C46_random.
Print Assumptions C46_random_create_refuted.
