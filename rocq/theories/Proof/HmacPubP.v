(** HMAC over every hash of the library, the Keccak MACs, and splitting of the input of the MACs. *)
From Coq Require Import NArith Arith List Bool Lia.
From Verif Require Import Lib.Res Lib.Bytes Lib.BlockLemmas Spec.Words Spec.Modes Spec.Hash Spec.Hashes Spec.Mac Spec.Hmac Spec.Sha1 Spec.Md5 Spec.Sha2 Spec.Tiger Spec.Whirlpool Spec.Keccak
  Model.HashApi Model.MacApi Model.Hmac Model.Sha1 Model.Md5 Model.Sha2 Model.Tiger Model.Whirlpool Model.Blake Model.Keccak
  Proof.MacP Proof.MdP Proof.Sha1P Proof.Sha2P Proof.TigerP Proof.WhirlpoolP Proof.BlakeP Proof.Blake2P Proof.KeccakP Proof.HashesP Proof.HmacP Proof.DigestsP.
Import ListNotations.
Local Open Scope N_scope.

Lemma sponge1600_digests okm r rate dom n : r <= 48 -> (0 < rate)%nat -> dom < 128 ->
  digests n okm (sponge (keccak_bytes 8 (round_constant 64) (N.to_nat (rounds_of 24 r))) 200 rate dom n).
Proof. intros Hr H1 H2. apply sponge_digests; [exact H1|exact H2|]. intros s Hs. now apply f1600_blk. Qed.
Lemma sponge800_digests okm r rate dom n : r <= 40 -> (0 < rate)%nat -> dom < 128 ->
  digests n okm (sponge (keccak_bytes 4 folded_constant (N.to_nat (rounds_of 20 r))) 100 rate dom n).
Proof. intros Hr H1 H2. apply sponge_digests; [exact H1|exact H2|]. intros s Hs. now apply f800_blk. Qed.
Theorem use_digests d r salt n cap okm : hash_use d r salt n cap okm -> exists H, computes d r salt n cap okm H /\ digests cap okm H.
Proof.
  intros [r0 n0 Hr Hn|r0 n0 Hr Hn|n0 Hn|r0 n0 Hn|r0 n0 Hn|r0 n0 Hr Hn|r0 salt0 n0 Bs Ls Hn|r0 salt0 n0 Bs Ls Hn|r0 salt0 n0 Bs Ls Hn|r0 salt0 n0 Bs Ls Hn|r0 n0 c Hr Hn Hc|r0 n0 c Hr Hn Hc|r0 n0 Hr Hn]; eexists; split.
  - apply sha2_256_computes; [exact Hn|]. apply (small_rounds rounds32 128); [vm_compute; reflexivity|exact Hr].
  - apply sha2_32_digests. unfold siv32. now destruct (_ <? _)%nat.
  - apply sha2_512_computes; [exact Hn|]. apply (small_rounds rounds64 160); [vm_compute; reflexivity|exact Hr].
  - apply sha2_64_digests. unfold siv64. now destruct (_ <? _)%nat.
  - now apply sha1_computes.
  - apply sha1_digests.
  - now apply md5_computes.
  - apply md5_digests.
  - now apply tiger_computes.
  - apply tiger_digests.
  - now apply whirlpool_computes.
  - apply whirlpool_digests. unfold rounds_w. destruct (r0 =? 0); lia.
  - now apply blake256_computes.
  - apply blake256_digests.
  - now apply blake512_computes.
  - apply blake512_digests.
  - now apply blake2s_computes.
  - apply blake2s_digests.
  - now apply blake2b_computes.
  - apply blake2b_digests.
  - now apply keccak1600_computes.
  - apply sponge1600_digests; [exact Hr|lia|reflexivity].
  - now apply keccak800_computes.
  - apply sponge800_digests; [exact Hr|lia|reflexivity].
  - now apply sha3_computes.
  - apply sponge1600_digests; [exact Hr|lia|reflexivity].
Qed.
Theorem hmac_use d r n cap okm key : hash_use d r [] n cap okm -> bytes_ok key -> (0 < length key)%nat ->
  (length key <= hs_blocksize d \/ n <= hs_blocksize d /\ okm (length key))%nat ->
  exists H, computes d r [] n cap okm H /\
    let T := hmac (hs_blocksize d) (fun m => firstn n (H m)) key in
    let ok := ok_hmac (hs_blocksize d) n okm in
    mac_computes (hmac_desc d) r key n (eq [n]) ok T /\ forall s, mac_gives (hmac_desc d) (mac_recreate (hmac_desc d) s r key n) (eq [n]) ok T.
Proof.
  intros U Bk Lk Kk. destruct (use_digests _ _ _ _ _ _ U) as (H & C & D). exists H. split; [exact C|]. pose proof (use_cap _ _ _ _ _ _ U) as L.
  apply (hmac_full d r n cap okm H key C (digests_weaken _ _ _ _ D L) L Bk Lk Kk).
Qed.

(** the hash of the key and the message *)
Section HashMac.
  Variables (d : hash) (maxtag : nat) (r : N) (n cap : nat) (okm : nat -> Prop) (H : list N -> list N) (key : list N).
  Hypothesis C : computes d r [] n cap okm H.
  Hypothesis D : digests cap okm H.
  Hypothesis Bk : bytes_ok key.
  Hypothesis Lk : (0 < length key)%nat.
  Let T (m : list N) := H (key ++ m).
  Let ok (l : nat) := okm (length key + l)%nat.
  Lemma hash_mac_feed parts : forall s, mfeed (hash_mac d maxtag) s parts = feed d s parts.
  Proof. induction parts as [|x parts IH]; intros s; [reflexivity|]. cbn [mfeed feed]. unfold mac_input. cbn [mc_input hash_mac]. destruct (hash_input d s x) as [s'|e]; [|reflexivity]. apply IH. Qed.
  Lemma hash_mac_tags lens : forall s, mtags (hash_mac d maxtag) s lens = drain d s lens.
  Proof. induction lens as [|x lens IH]; intros s; [reflexivity|]. cbn [mtags drain]. unfold mac_tag. cbn [mc_tag hash_mac]. destruct (hash_output d s x) as [p|e]; [|reflexivity]. cbn [bind]. now rewrite IH. Qed.
  Lemma hash_mac_tag s0 parts lens : tag_of (hash_mac d maxtag) (let* h := s0 in hash_input d h key) parts lens = digest d s0 (key :: parts) lens.
  Proof.
    unfold tag_of, digest. destruct s0 as [h|e]; [|reflexivity]. cbn [bind feed]. destruct (hash_input d h key) as [h'|e]; [|reflexivity]. cbn [bind].
    rewrite hash_mac_feed. destruct (feed d h' parts) as [h''|e]; [|reflexivity]. cbn [bind]. apply hash_mac_tags.
  Qed.
  Lemma hash_mac_parts parts : Forall bytes_ok parts -> ok (length (concat parts)) -> Forall bytes_ok (key :: parts) /\ okm (length (concat (key :: parts))) /\
    bytes_ok (T (concat parts)) /\ (cap <= length (T (concat parts)))%nat.
  Proof.
    intros Hb Ho. split; [now constructor|]. cbn [concat]. rewrite app_length. split; [exact Ho|]. apply D; [apply bytes_app; split; [exact Bk|now apply bytes_parts]|].
    rewrite app_length. exact Ho.
  Qed.
  Lemma list_sum_one k : list_sum [k] = k.
  Proof. apply Nat.add_0_r. Qed.
  Theorem hash_mac_gives : (n <= cap)%nat -> mac_computes (hash_mac d maxtag) r key n (at_most cap) ok T /\
    forall s, mac_gives (hash_mac d maxtag) (mac_recreate (hash_mac d maxtag) s r key n) (at_most cap) ok T.
  Proof.
    intros L. split; [apply computes_of; [|unfold at_most; now rewrite list_sum_one]|intros s]; apply gives_intro; intros parts Hb Ho;
      destruct (hash_mac_parts parts Hb Ho) as (Hb' & Ho' & BT & LT); (split; [exact BT|]; split; [intros k; unfold at_most; rewrite list_sum_one; lia|]);
      intros lens Hl; destruct (C _ Hb' Ho') as [E _]; destruct (E lens Hl) as [E1 E2].
    - unfold mac_create. rewrite assert_true by (now apply Nat.ltb_lt). cbn [mc_create hash_mac]. rewrite hash_mac_tag. exact E1.
    - unfold mac_recreate. rewrite assert_true by (now apply Nat.ltb_lt). cbn [mc_recreate hash_mac]. rewrite hash_mac_tag. apply E2.
  Qed.
End HashMac.
Theorem keccak1600_mac r n cap key : r <= 48 -> (n < 100)%nat -> (n <= cap)%nat -> bytes_ok key -> (0 < length key)%nat ->
  let T := fun m => sponge (keccak_bytes 8 (round_constant 64) (N.to_nat (rounds_of 24 r))) 200 (200 - 2 * n) 1 cap (key ++ m) in
  mac_computes mac_keccak1600 r key n (at_most cap) (fun _ => True) T /\ forall s, mac_gives mac_keccak1600 (mac_recreate mac_keccak1600 s r key n) (at_most cap) (fun _ => True) T.
Proof.
  intros Hr Hn Hc Bk Lk T. apply (hash_mac_gives hash_keccak1600 99 r n cap (fun _ => True)); [now apply keccak1600_computes| |exact Bk|exact Lk|exact Hc].
  apply sponge1600_digests; [exact Hr|lia|reflexivity].
Qed.
Theorem keccak800_mac r n cap key : r <= 40 -> (n < 50)%nat -> (n <= cap)%nat -> bytes_ok key -> (0 < length key)%nat ->
  let T := fun m => sponge (keccak_bytes 4 folded_constant (N.to_nat (rounds_of 20 r))) 100 (100 - 2 * n) 1 cap (key ++ m) in
  mac_computes mac_keccak800 r key n (at_most cap) (fun _ => True) T /\ forall s, mac_gives mac_keccak800 (mac_recreate mac_keccak800 s r key n) (at_most cap) (fun _ => True) T.
Proof.
  intros Hr Hn Hc Bk Lk T. apply (hash_mac_gives hash_keccak800 49 r n cap (fun _ => True)); [now apply keccak800_computes| |exact Bk|exact Lk|exact Hc].
  apply sponge800_digests; [exact Hr|lia|reflexivity].
Qed.

(** splitting *)
Theorem gives_split d s okl okm T : mac_gives d s okl okm T ->
  forall parts lens, Forall bytes_ok parts -> okm (length (concat parts)) -> okl lens -> exists t, tag_of d s parts lens = Ok t /\ tag_of d s [concat parts] lens = Ok t.
Proof.
  intros G parts lens Hb Ho Hl. destruct (G parts Hb Ho) as [E _]. exists (firstn (list_sum lens) (T (concat parts))). split; [now apply E|].
  assert (Ec : concat [concat parts] = concat parts) by apply app_nil_r. destruct (G [concat parts]) as [E' _].
  - constructor; [now apply bytes_parts|constructor].
  - now rewrite Ec.
  - rewrite (E' lens Hl), Ec. reflexivity.
Qed.
(** hashes whose message lengths are those below [lim] *)
Lemma hmac_lim d n cap lim H : computes d 0 [] n cap (fun l => N.of_nat l < lim) H -> digests n (fun l => N.of_nat l < lim) H -> (n <= cap)%nat -> (n <= hs_blocksize d)%nat ->
  (N.of_nat (hs_blocksize d + n) <? lim) = true ->
  forall key, bytes_ok key -> (0 < length key)%nat -> N.of_nat (length key) < lim ->
  let ok := fun l : nat => N.of_nat (hs_blocksize d + l) < lim in
  mac_computes (hmac_desc d) 0 key n (eq [n]) ok (hmac (hs_blocksize d) (fun m => firstn n (H m)) key) /\
  forall s, mac_gives (hmac_desc d) (mac_recreate (hmac_desc d) s 0 key n) (eq [n]) ok (hmac (hs_blocksize d) (fun m => firstn n (H m)) key).
Proof.
  intros C D L LB Hl key Bk Lk Kl ok. apply N.ltb_lt in Hl.
  destruct (hmac_full d 0 n cap _ H key C D L Bk Lk (or_intror (conj LB Kl))) as [[G A] R]. unfold ok_hmac in *. split; [split|].
  - intros parts Hb Ho. apply G; [exact Hb|]. split; [exact Ho|exact Hl].
  - intros m Hb Ho. apply A; [exact Hb|]. split; [exact Ho|exact Hl].
  - intros s parts Hb Ho. apply R; [exact Hb|]. split; [exact Ho|exact Hl].
Qed.
(** SHA-3 by the model, for evaluation *)
Definition run_sha3 (n : nat) (m : list N) : list N := match hash_all hash_sha3 0 [] m n with Ok t => t | Err _ => [] end.
Lemma hmac_sha3_run B n key m : (n <= 64)%nat -> (length key <= B)%nat -> bytes_ok key -> bytes_ok m -> hmac B (sha3 n) key m = hmac B (run_sha3 n) key m.
Proof.
  intros Hn Hk Bk Bm. assert (E : forall x, bytes_ok x -> sha3 n x = run_sha3 n x) by (intros x Bx; unfold run_sha3; now rewrite sha3_digest).
  assert (L : (length key <=? B)%nat = true) by (now apply Nat.leb_le). unfold hmac, hmac_key. rewrite L. cbv zeta.
  assert (B1 : bytes_ok (pad_key B ipad key ++ m)) by (apply bytes_app; split; [now apply bytes_pad_key|exact Bm]).
  assert (B2 : bytes_ok (sha3 n (pad_key B ipad key ++ m))).
  { unfold sha3. apply (sponge1600_digests (fun _ => True) 0 (200 - 2 * n) 6 n); [discriminate|lia|reflexivity|exact B1|exact I]. }
  rewrite E by (apply bytes_app; split; [now apply bytes_pad_key|exact B2]). rewrite E by exact B1. reflexivity.
Qed.
