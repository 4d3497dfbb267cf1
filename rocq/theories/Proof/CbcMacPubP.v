(** OMAC and XCBC over the ciphers of the library. *)
From Coq Require Import NArith Arith List Bool Lia.
From Verif Require Import Lib.Word Lib.Res Lib.Bytes Lib.WordsP Lib.BlockLemmas Spec.Words Spec.Block Spec.Cipher Spec.Arx Spec.Aes Spec.Mac Spec.CbcMac
  Model.BlockApi Model.MacApi Model.Omac Model.Ciphers Model.Rijndael Model.Lea Proof.MacP Proof.CbcMacP Proof.CiphersP Proof.RekeyP Proof.RijndaelKeyP.
Import ListNotations.
Local Open Scope N_scope.

Lemma omac_works c r key n s R : (0 < length key)%nat -> bc_create c r key = Ok s -> works c s -> cmac_poly (bc_bs c) = Some R -> (n <= bc_bs c)%nat ->
  mac_computes (omac_desc c) r key n (at_most (bc_bs c)) (fun _ => True) (cmac (bc_bs c) (fn (bc_enc c s)) R).
Proof. intros Hk Es W HR Hn. exact (omac_computes c r key n s _ R Es Hk (works_fn c s W) HR Hn). Qed.
Lemma omac_rekeyed c m r key n s R : (0 < length key)%nat -> bc_recreate c (om_block c m) r key = Ok s -> works c s -> cmac_poly (bc_bs c) = Some R ->
  mac_gives (omac_desc c) (mac_recreate (omac_desc c) m r key n) (at_most (bc_bs c)) (fun _ => True) (cmac (bc_bs c) (fn (bc_enc c s)) R).
Proof. intros Hk Es W HR. exact (omac_regives c m r key n s _ R Es Hk (works_fn c s W) HR). Qed.

Definition omac_ok (c : bcipher) : Prop := forall key n, key_ok (bc_maxkey c) key -> (n <= bc_bs c)%nat -> exists s R,
  bc_create c 0 key = Ok s /\ works c s /\ cmac_poly (bc_bs c) = Some R /\
  mac_computes (omac_desc c) 0 key n (at_most (bc_bs c)) (fun _ => True) (cmac (bc_bs c) (fn (bc_enc c s)) R).
Lemma omac_default c : works_default c -> cmac_poly (bc_bs c) <> None -> omac_ok c.
Proof.
  intros W HR key n Hk Hn. destruct (W key Hk) as (s & Es & Ws). destruct (cmac_poly (bc_bs c)) as [R|] eqn:ER; [|now destruct HR].
  exists s, R. repeat (split; [assumption || reflexivity|]). apply omac_works; try assumption. destruct Hk as [_ [? _]]. assumption.
Qed.
Lemma polys : Forall (fun c => cmac_poly (bc_bs c) <> None) sound_ciphers.
Proof. repeat apply Forall_cons; try apply Forall_nil; discriminate. Qed.
Lemma omac_sound : Forall omac_ok sound_ciphers.
Proof.
  apply Forall_forall. intros c Hc. apply omac_default; [exact (proj1 (Forall_forall _ _) sound_default c Hc)|exact (proj1 (Forall_forall _ _) polys c Hc)].
Qed.

(** ** published ciphers *)
Definition keyed c (s : bc_st c) (E : list N -> list N) : Prop := forall pt, blk (bc_bs c) pt -> bc_enc c s pt = Ok (E pt).
Lemma keyed_fn c s E : works c s -> keyed c s E -> enc_fn c s E.
Proof.
  intros W K b Hb. destruct (works_fn c s W b Hb) as [E1 B1]. split; [now apply K|]. rewrite (K b Hb) in E1. apply Ok_inj in E1. now rewrite E1.
Qed.
Lemma is_keyed c ok E key : works_default c -> is_cipher c ok E -> key_ok (bc_maxkey c) key -> ok key ->
  exists s, bc_create c 0 key = Ok s /\ enc_fn c s (E key).
Proof.
  intros W I Hk Ho. destruct (W key Hk) as (s & Es & Ws). destruct (I key) as (s' & Es' & K); [apply Hk|exact Ho|].
  rewrite Es in Es'. apply Ok_inj in Es'. subst s'. exists s. split; [exact Es|]. apply keyed_fn; [exact Ws|]. intros pt Hp. now apply K.
Qed.
Lemma omac_published c ok E R key n : works_default c -> is_cipher c ok E -> cmac_poly (bc_bs c) = Some R -> key_ok (bc_maxkey c) key -> ok key -> (n <= bc_bs c)%nat ->
  mac_computes (omac_desc c) 0 key n (at_most (bc_bs c)) (fun _ => True) (cmac (bc_bs c) (E key) R).
Proof.
  intros W I HR Hk Ho Hn. destruct (is_keyed c ok E key W I Hk Ho) as (s & Es & K). apply (omac_computes c 0 key n s); try assumption. destruct Hk as [_ [? _]]. assumption.
Qed.
Definition aes_key (key : list N) : Prop := length key = 16%nat \/ length key = 24%nat \/ length key = 32%nat.
Lemma aes_cipher : is_cipher rijndael128_desc aes_key aes_enc.
Proof.
  intros key Hb Hl. destruct (aes_spec key Hb Hl) as (s & Es & He & Hd). exists s. split; [exact Es|]. intros pt Hp. split; [exact (He pt Hp)|].
  destruct (rijndael128_default key) as (s' & Es' & W). { split; [exact Hb|]. change (bc_maxkey rijndael128_desc) with 32%nat. destruct Hl as [-> |[-> | ->]]; lia. }
  assert (s' = s) as -> . { change (bc_create rijndael128_desc 0 key) with (rijndael128_create 0 key) in Es'. rewrite Es in Es'. now apply Ok_inj in Es'. }
  destruct W as [_ (P & _)]. destruct (P pt (proj1 Hp) (proj2 Hp)) as (y & E1 & _ & _ & E2). pose proof (He pt Hp) as E3.
  change (bc_enc rijndael128_desc s pt) with (rijndael128_encrypt s pt) in E1. rewrite E3 in E1. apply Ok_inj in E1. rewrite E1. exact E2.
Qed.

(** ** XCBC *)
Lemma xcbc_gives c r key n s s1 F F1 : (0 < length key)%nat -> (0 < bc_bs c < 256)%nat -> bc_create c r key = Ok s -> enc_fn c s F ->
  bc_recreate c s r (F (repeat 1 (bc_bs c))) = Ok s1 -> enc_fn c s1 F1 -> (n <= bc_bs c)%nat ->
  mac_computes (xcbc_desc c) r key n (at_most (bc_bs c)) (fun _ => True) (cbc_mac (bc_bs c) F1 (F (repeat 2 (bc_bs c))) (F (repeat 3 (bc_bs c)))).
Proof.
  intros Hk Hb Es HF Er HF1 Hn. apply computes_of; [|unfold at_most; cbn; lia].
  unfold mac_create. rewrite assert_true by (now apply Nat.ltb_lt). cbn [mc_create xcbc_desc]. unfold xcbc_create. rewrite Es. cbn [bind].
  exact (xcbc_init_gives c s s1 F F1 r Hb HF Er HF1).
Qed.
Lemma xcbc_regives c m r key n s s1 F F1 : (0 < length key)%nat -> (0 < bc_bs c < 256)%nat -> bc_recreate c (xc_block c m) r key = Ok s -> enc_fn c s F ->
  bc_recreate c s r (F (repeat 1 (bc_bs c))) = Ok s1 -> enc_fn c s1 F1 ->
  mac_gives (xcbc_desc c) (mac_recreate (xcbc_desc c) m r key n) (at_most (bc_bs c)) (fun _ => True) (cbc_mac (bc_bs c) F1 (F (repeat 2 (bc_bs c))) (F (repeat 3 (bc_bs c)))).
Proof.
  intros Hk Hb Es HF Er HF1. unfold mac_recreate. rewrite assert_true by (now apply Nat.ltb_lt). cbn [mc_recreate xcbc_desc]. unfold xcbc_recreate. rewrite Es. cbn [bind].
  exact (xcbc_init_gives c s s1 F F1 r Hb HF Er HF1).
Qed.
(** the key can be replaced by a block *)
Definition rekeys (c : bcipher) (key : list N) : Prop := forall s k1, bc_create c 0 key = Ok s -> blk (bc_bs c) k1 -> recreate_ok c s 0 k1.
Definition xcbc_ok (c : bcipher) (key : list N) : Prop := forall n, key_ok (bc_maxkey c) key -> (n <= bc_bs c)%nat -> exists s s1,
  bc_create c 0 key = Ok s /\ works c s /\ bc_create c 0 (fn (bc_enc c s) (repeat 1 (bc_bs c))) = Ok s1 /\ works c s1 /\
  mac_computes (xcbc_desc c) 0 key n (at_most (bc_bs c)) (fun _ => True)
    (cbc_mac (bc_bs c) (fn (bc_enc c s1)) (fn (bc_enc c s) (repeat 2 (bc_bs c))) (fn (bc_enc c s) (repeat 3 (bc_bs c)))).
Lemma xcbc_default c key : works_default c -> (bc_bs c <= bc_maxkey c)%nat -> (bc_bs c < 256)%nat -> rekeys c key -> xcbc_ok c key.
Proof.
  intros W Hm Hb Hr n Hk Hn. destruct (W key Hk) as (s & Es & Ws). pose proof (works_fn c s Ws) as HF.
  destruct (HF _ (blk_fill (bc_bs c) 1 ltac:(reflexivity))) as [_ B1].
  destruct (W (fn (bc_enc c s) (repeat 1 (bc_bs c)))) as (s1 & Es1 & Ws1). { split; [apply B1|]. rewrite (proj1 B1). destruct Ws as [? _]. lia. }
  exists s, s1. repeat (split; [assumption|]). apply (xcbc_gives c 0 key n s s1); try assumption.
  - destruct Hk as [_ [? _]]. assumption.
  - destruct Ws as [? _]. lia.
  - rewrite (Hr s _ Es B1). exact Es1.
  - now apply works_fn.
Qed.
Lemma rekeys_any c key : rekey_any c -> rekeys c key. Proof. intros H s k _ _. apply H. Qed.
Lemma rekeys_rounds c key : rekey_rounds c -> rekeys c key. Proof. intros H s k E _. exact (H s 0 key k E). Qed.
Lemma rekeys_same c key : rekey_same c -> length key = bc_bs c -> rekeys c key.
Proof. intros H L s k E B. apply (H s 0 key k E). now rewrite (proj1 B). Qed.
Lemma xcbc_any : Forall (fun c => forall key, xcbc_ok c key)
  [tea_desc; noekeon_desc; rc2_desc; threeway_desc; crax_desc; threefish_desc Model.Threefish.threefish256; threefish_desc Model.Threefish.threefish512; threefish_desc Model.Threefish.threefish1024;
   xtea_desc; rc5_desc; rc6_desc; idea_desc; trax_desc Model.Sparx.trax_m; trax_desc Model.Sparx.trax_l; rectangle_desc;
   gost_desc Model.Gost.gost_cbr; gost_desc Model.Gost.gost_r3412; simon_desc Model.Simon.simon32;
   seed_desc; sm4_desc; skipjack_desc; cast5_desc; des_desc; blowfish_desc; camellia_desc; twofish_desc; serpent_desc; shacal2_desc; khazad_desc].
Proof.
  assert (D : forall c, In c sound_ciphers -> works_default c) by (intros c Hc; exact (proj1 (Forall_forall _ _) sound_default c Hc)).
  assert (A : forall c, rekey_any c -> rekey_rounds c) by exact rekey_any_rounds.
  repeat apply Forall_cons; try apply Forall_nil; intros key; apply xcbc_default; try (apply Nat.leb_le; reflexivity).
  all: try (apply D; unfold sound_ciphers; cbn [In]; tauto).
  all: apply rekeys_rounds; first [exact xtea_rekey_r|exact rc5_rekey_r|exact rc6_rekey_r|exact idea_rekey_r|exact rectangle_rekey_r|apply trax_rekey_r|apply gost_rekey_r|exact simon32_rekey_r|
    exact seed_rekey_r|exact sm4_rekey_r|exact blowfish_rekey_r|exact twofish_rekey_r|exact serpent_rekey_r|exact shacal2_rekey_r|exact khazad_rekey_r|
    apply A; intros s r k; reflexivity].
Qed.
Lemma xcbc_block_keys : Forall (fun c => forall key, length key = bc_bs c -> xcbc_ok c key)
  [lea_desc; simon_desc Model.Simon.simon64; simon_desc Model.Simon.simon128; rijndael128_desc; anubis_desc; aria_desc].
Proof.
  assert (D : forall c, In c sound_ciphers -> works_default c) by (intros c Hc; exact (proj1 (Forall_forall _ _) sound_default c Hc)).
  repeat apply Forall_cons; try apply Forall_nil; intros key L; apply xcbc_default; try (apply Nat.leb_le; reflexivity).
  all: try (apply D; unfold sound_ciphers; cbn [In]; tauto).
  all: apply rekeys_same; [|exact L]; first [exact lea_rekey|apply simon_rekey|exact rijndael128_rekey|exact anubis_rekey|exact aria_rekey].
Qed.
(** ** published ciphers *)
Lemma xcbc_published c ok E key n : works_default c -> is_cipher c ok E -> rekeys c key -> (bc_bs c <= bc_maxkey c)%nat -> (0 < bc_bs c < 256)%nat -> key_ok (bc_maxkey c) key -> ok key ->
  (forall k, length k = bc_bs c -> ok k) -> (n <= bc_bs c)%nat ->
  mac_computes (xcbc_desc c) 0 key n (at_most (bc_bs c)) (fun _ => True) (xcbc_mac (bc_bs c) E key).
Proof.
  intros W I Hr Hm Hb Hk Ho Hob Hn. destruct (is_keyed c ok E key W I Hk Ho) as (s & Es & K). destruct (K _ (blk_fill (bc_bs c) 1 ltac:(reflexivity))) as [_ B1].
  destruct (is_keyed c ok E (E key (repeat 1 (bc_bs c))) W I) as (s1 & Es1 & K1); [split; [apply B1|rewrite (proj1 B1); lia]|apply Hob, B1|].
  apply (xcbc_gives c 0 key n s s1 (E key) (E (E key (repeat 1 (bc_bs c))))); try assumption.
  - destruct Hk as [_ [? _]]. assumption.
  - rewrite (Hr s _ Es B1). exact Es1.
Qed.
Lemma xcbc_aes key n : blk 16 key -> (n <= 16)%nat -> mac_computes (xcbc_desc rijndael128_desc) 0 key n (at_most 16) (fun _ => True) (xcbc_mac 16 aes_enc key).
Proof.
  intros [L B] Hn. apply (xcbc_published rijndael128_desc aes_key aes_enc key n).
  - exact rijndael128_default.
  - exact aes_cipher.
  - apply rekeys_same; [exact rijndael128_rekey|exact L].
  - apply Nat.leb_le. reflexivity.
  - change (bc_bs rijndael128_desc) with 16%nat. lia.
  - split; [exact B|]. change (bc_maxkey rijndael128_desc) with 32%nat. lia.
  - now left.
  - intros k Hk. now left.
  - exact Hn.
Qed.
(** ** the use after free *)
Lemma xcbc_uaf c r key n s e : (0 < length key)%nat -> bc_create c r key = Ok s -> works c s -> (forall k, length k = bc_bs c -> bc_recreate c s r k = Err e) ->
  mac_create (xcbc_desc c) r key n = Err e.
Proof.
  intros Hk Es W Hr. pose proof (works_fn c s W) as HF.
  unfold mac_create. rewrite assert_true by (now apply Nat.ltb_lt). cbn [mc_create xcbc_desc]. unfold xcbc_create. rewrite Es. cbn [bind]. unfold xcbc_init.
  destruct (HF _ (blk_fill (bc_bs c) 1 ltac:(reflexivity))) as [-> B1]. destruct (HF _ (blk_fill (bc_bs c) 2 ltac:(reflexivity))) as [-> _]. destruct (HF _ (blk_fill (bc_bs c) 3 ltac:(reflexivity))) as [-> _].
  cbn [bind]. rewrite (Hr _ (proj1 B1)). reflexivity.
Qed.
Lemma xcbc_aes_uaf key n : bytes_ok key -> (16 < length key <= 32)%nat -> mac_create (xcbc_desc rijndael128_desc) 0 key n = Err UseAfterFree.
Proof.
  intros Hb Hl. destruct (rijndael128_default key) as (s & Es & W). { split; [exact Hb|]. change (bc_maxkey rijndael128_desc) with 32%nat. lia. }
  apply (xcbc_uaf rijndael128_desc 0 key n s UseAfterFree); try assumption; [lia|]. intros k Lk. change (bc_bs rijndael128_desc) with 16%nat in Lk.
  change (bc_recreate rijndael128_desc s 0 k) with (rj_recreate 4 10 s 0 k). change (bc_create rijndael128_desc 0 key) with (rj_create 4 10 5 0 key) in Es.
  unfold rj_create in Es. apply assert_inv in Es. destruct Es as [_ Es]. cbv zeta in Es. apply fits_inv in Es. destruct Es as [_ Es].
  unfold rj_setup in Es. apply bind_ok in Es. destruct Es as (kk & _ & Es). apply Ok_inj in Es. subst s. unfold rj_recreate. cbn [rj_r].
  rewrite assert_true by (unfold key_len_ok; rewrite Lk; reflexivity). cbv zeta.
  assert (E1 : rj_rounds 10 0 k = 10) by (unfold rj_rounds; rewrite Lk; reflexivity). rewrite E1.
  assert (E2 : 10 < rj_rounds 10 0 key).
  { unfold rj_rounds. change (0 =? 0) with true. cbv iota zeta. pose proof (Nat.div_mod_eq (length key + 3) 4). pose proof (Nat.mod_upper_bound (length key + 3) 4 ltac:(lia)).
    set (q := Nat.div (length key + 3) 4) in *. assert (5 <= q)%nat by lia. assert (E3 : 6 + N.of_nat q <? 10 = false) by (apply N.ltb_ge; lia). rewrite E3. lia. }
  assert (E3 : 10 =? rj_rounds 10 0 key = false) by (apply N.eqb_neq; lia). now rewrite E3.
Qed.
Lemma xcbc_lea_uaf key n : bytes_ok key -> (16 < length key <= 32)%nat -> mac_create (xcbc_desc lea_desc) 0 key n = Err UseAfterFree.
Proof.
  intros Hb Hl. destruct (lea_default key) as (s & Es & W). { split; [exact Hb|]. change (bc_maxkey lea_desc) with 32%nat. lia. }
  apply (xcbc_uaf lea_desc 0 key n s UseAfterFree); try assumption; [lia|]. intros k Lk. change (bc_bs lea_desc) with 16%nat in Lk.
  change (bc_recreate lea_desc s 0 k) with (lea_recreate s 0 k). change (bc_create lea_desc 0 key) with (lea_create 0 key) in Es.
  unfold lea_create in Es. apply assert_inv in Es. destruct Es as [_ Es]. cbv zeta in Es. apply fits_inv in Es. destruct Es as [_ Es].
  apply Ok_inj in Es. subst s. unfold lea_recreate. cbn [lea_setup lea_r]. rewrite assert_true by (unfold key_len_ok; rewrite Lk; reflexivity). cbv zeta.
  assert (E1 : lea_rounds 0 k = 24) by (unfold lea_rounds; rewrite Lk; reflexivity). rewrite E1.
  assert (E2 : lea_rounds 0 key <> 24). { unfold lea_rounds. change (0 =? 0) with true. cbv iota. destruct (24 <? length key)%nat; [discriminate|]. assert (L : (16 <? length key)%nat = true) by (apply Nat.ltb_lt; lia). rewrite L. discriminate. }
  assert (E3 : 24 =? lea_rounds 0 key = false) by (apply N.eqb_neq; congruence). now rewrite E3.
Qed.
