(** The block cipher results in terms of descriptors. *)
From Coq Require Import NArith Arith List Bool Lia.
From Verif Require Import Lib.Word Lib.Res Lib.Bytes Lib.BlockLemmas Spec.Block Spec.Cipher Model.BlockApi Model.Ciphers
  Model.Tea Model.Xtea Model.Rc5 Model.Rc6 Model.Speck Model.Simon Model.Threefish Model.Lea Model.Sparx
  Model.Noekeon Model.Rectangle Model.Rc2 Model.Threeway Model.Gost Model.Idea Model.Rijndael
  Model.Seed Model.Sm4 Model.Skipjack Model.Cast5 Model.Des Model.Blowfish Model.Camellia Model.Twofish Model.Serpent Model.Shacal2 Model.Safer Model.Saferpp Model.Khazad Model.Anubis Model.Aria
  Proof.TeaP Proof.XteaP Proof.Rc5P Proof.Rc6P Proof.SpeckP Proof.SimonP Proof.ThreefishP Proof.LeaP Proof.SparxP
  Proof.NoekeonP Proof.RectangleP Proof.Rc2P Proof.ThreewayP Proof.GostP Proof.IdeaP Proof.RijndaelKeyP
  Proof.SeedP Proof.Sm4P Proof.SkipjackP Proof.Cast5P Proof.DesP Proof.BlowfishP Proof.CamelliaP Proof.TwofishP Proof.SerpentP Proof.Shacal2P Proof.SaferP Proof.SaferppP Proof.KhazadP Proof.AnubisP Proof.AriaP.
Import ListNotations.
Local Open Scope N_scope.

Lemma perm_bijective n E D : permutation n E D -> bijective n E.
Proof.
  intros [H1 H2]. split.
  - intros x y z [Lx Bx] [Ly By] Ex Ey. destruct (H1 x Lx Bx) as (x' & E1 & _ & _ & D1).
    destruct (H1 y Ly By) as (y' & E2 & _ & _ & D2). rewrite Ex in E1. rewrite Ey in E2.
    apply Ok_inj in E1. apply Ok_inj in E2. subst x' y'. rewrite D1 in D2. now apply Ok_inj in D2.
  - intros z [Lz Bz]. destruct (H2 z Lz Bz) as (x & _ & Lx & Bx & E1). exists x. now repeat split.
Qed.

Lemma works_default_when ok c : works_when ok c -> (forall key, key_ok (bc_maxkey c) key -> ok 0 key) -> works_default c.
Proof. intros H Hok key Hk. now apply (H 0 key Hk), Hok. Qed.

Ltac use_perm := let s := fresh "s" in let E := fresh "E" in let P := fresh "P" in
  intros (s & E & P); exists s; split; [exact E|split; [cbn; lia|exact P]].

Lemma tea_works : works_when (fun r _ => r < 2 ^ 32) tea_desc.
Proof. intros r key Hk Hr. generalize (tea_perm r key Hk Hr). use_perm. Qed.
Lemma xtea_works : works_when (fun r _ => N.even r = true /\ r < 2 ^ 30) xtea_desc.
Proof. intros r key Hk [He Hr]. generalize (xtea_perm r key Hk He Hr). use_perm. Qed.
Lemma rc5_works : works_when (fun r _ => r < 2 ^ 29 - 1) rc5_desc.
Proof. intros r key Hk Hr. generalize (rc5_perm r key Hk Hr). use_perm. Qed.
Lemma rc6_works : works_when (fun r _ => r < 2 ^ 29 - 2) rc6_desc.
Proof. intros r key Hk Hr. generalize (rc6_perm r key Hk Hr). use_perm. Qed.
Lemma lea_works : works_when (fun r _ => r mod 4 = 0 /\ r * 24 < 2 ^ 32) lea_desc.
Proof. intros r key Hk [Hm Hr]. generalize (lea_perm r key Hk Hm Hr). use_perm. Qed.
Lemma crax_works : works_when (fun r _ => r < 2 ^ 32) crax_desc.
Proof. intros r key Hk Hr. generalize (crax_perm r key Hk Hr). use_perm. Qed.
Lemma noekeon_works : works_when (fun r _ => r < 34) noekeon_desc.
Proof. intros r key Hk Hr. generalize (noek_perm r key Hk Hr). use_perm. Qed.
Lemma rectangle_works : works_when (fun r _ => r <= 25) rectangle_desc.
Proof. intros r key Hk Hr. generalize (rect_perm r key Hk Hr). use_perm. Qed.
Lemma rc2_works : works_when (fun _ _ => True) rc2_desc.
Proof. intros r key Hk _. generalize (rc2_perm r key Hk). use_perm. Qed.
Lemma threeway_works : works_when (fun r _ => r = 0) threeway_desc.
Proof. intros r key Hk ->. generalize (tw_perm key Hk). use_perm. Qed.
Lemma gost_works sb : works_when (fun r key => r < 2 ^ 30 /\ N.even r = true /\ 2 * N.of_nat (gost_kl key) <= gost_rounds r) (gost_desc sb).
Proof. intros r key Hk (Hr & He & Hl). generalize (gost_perm sb r key Hk Hr He Hl). use_perm. Qed.
Lemma idea_works : works_when (fun r _ => 24 * r + 16 < 2 ^ 32) idea_desc.
Proof. intros r key Hk Hr. generalize (idea_perm r key Hk Hr). use_perm. Qed.

Lemma rijndael128_works : works_when (fun r key => (rj_rounds 10 r key + 1) * 2 ^ 5 < 2 ^ 32 /\
  (4 * (N.to_nat (rj_rounds 10 r key) + 1) <= 53 * rj_n key)%nat) rijndael128_desc.
Proof. intros r key Hk [H1 H2]. generalize (rijndael128_perm r key Hk H1 H2). use_perm. Qed.
Lemma rijndael256_works : works_when (fun r key => (rj_rounds 14 r key + 1) * 2 ^ 6 < 2 ^ 32 /\
  (8 * (N.to_nat (rj_rounds 14 r key) + 1) <= 53 * rj_n key)%nat) rijndael256_desc.
Proof. intros r key Hk [H1 H2]. generalize (rijndael256_perm r key Hk H1 H2). use_perm. Qed.

Lemma seed_works : works_when (fun r _ => r < 2 ^ 29) seed_desc.
Proof. intros r key Hk Hr. generalize (seed_perm r key Hk Hr). use_perm. Qed.
Lemma mult_of k r : k <> 0 -> r mod k = 0 -> r = k * (r / k).
Proof. intros Hk Hm. pose proof (N.div_mod' r k). lia. Qed.
Lemma sm4_works : works_when (fun r _ => r mod 4 = 0 /\ r <= 32) sm4_desc.
Proof.
  intros r key Hk [Hm Hr]. rewrite (mult_of 4 r ltac:(discriminate) Hm) in *. set (m := r / 4) in *. clearbody m.
  replace (4 * m) with (N.of_nat (4 * N.to_nat m)) by lia. generalize (sm4_perm (N.to_nat m) key Hk ltac:(lia)). use_perm.
Qed.
Lemma skipjack_works : works_when (fun r _ => r = 0 \/ r = 32) skipjack_desc.
Proof. intros r key Hk Hr. generalize (skipjack_perm r key Hk Hr). use_perm. Qed.
Lemma cast5_works : works_when (fun r _ => r = 0) cast5_desc.
Proof. intros r key Hk ->. generalize (cast5_perm key Hk). use_perm. Qed.
Lemma des_works : works_when (fun _ _ => True) des_desc.
Proof. intros r key Hk _. generalize (des_perm r key Hk). use_perm. Qed.
Lemma blowfish_works : works_when (fun r _ => r <= 34) blowfish_desc.
Proof. intros r key Hk Hr. generalize (blowfish_perm r key Hk Hr). use_perm. Qed.
Lemma camellia_works : works_when (fun r _ => r = 0) camellia_desc.
Proof. intros r key Hk ->. generalize (camellia_perm key Hk). use_perm. Qed.
Lemma even_half r : N.even r = true -> r = 2 * (r / 2).
Proof. intros H. apply N.even_spec in H. destruct H as [m ->]. rewrite (N.mul_comm 2 m) at 2. rewrite N.div_mul by discriminate. reflexivity. Qed.
Lemma twofish_works : works_when (fun r _ => N.even r = true /\ r < 2 ^ 29 - 4) twofish_desc.
Proof.
  intros r key Hk [He Hr]. rewrite (even_half r He) in *. set (m := r / 2) in *. clearbody m.
  change (2 ^ 29 - 4) with 536870908 in Hr.
  generalize (twofish_perm m key Hk ltac:(change (2 ^ 28 - 2) with 268435454; lia)). use_perm.
Qed.
Lemma serpent_works : works_when (fun r _ => r mod 8 = 0 /\ r < 2 ^ 28) serpent_desc.
Proof.
  intros r key Hk [Hm Hr]. rewrite (mult_of 8 r ltac:(discriminate) Hm) in *. set (m := r / 8) in *. clearbody m.
  change (2 ^ 28) with 268435456 in Hr.
  generalize (serpent_perm m key Hk ltac:(change (2 ^ 25) with 33554432; lia)). use_perm.
Qed.
Lemma shacal2_works : works_when (fun r _ => r = 0 \/ r mod 8 = 0 /\ 16 <= r < 128) shacal2_desc.
Proof.
  intros r key Hk Hr. assert (Hm : r mod 8 = 0) by (destruct Hr as [->|[Hm _]]; [reflexivity|exact Hm]).
  rewrite (mult_of 8 r ltac:(discriminate) Hm) in *. set (m := r / 8) in *. clearbody m.
  generalize (shacal2_perm m key Hk ltac:(lia)). use_perm.
Qed.
Lemma safer_works sk : works_when (fun r key => (length key = 8 \/ length key = 16)%nat /\ r < 2 ^ 28 - 1) (safer_desc sk).
Proof. intros r key Hk [Hl Hr]. generalize (Proof.SaferP.safer_perm sk r key Hk Hl Hr). use_perm. Qed.
Lemma saferpp_works : works_when (fun r key => (length key = 16 \/ length key = 32)%nat /\ r < 2 ^ 27 - 1) saferpp_desc.
Proof. intros r key Hk [Hl Hr]. generalize (Proof.SaferppP.saferpp_perm r key Hk Hl Hr). use_perm. Qed.
Lemma khazad_works : works_when (fun r _ => r <= 8) khazad_desc.
Proof. intros r key Hk Hr. generalize (khazad_perm r key Hk Hr). use_perm. Qed.
Lemma anubis_works : works_when (fun r _ => r <= 64) anubis_desc.
Proof. intros r key Hk Hr. generalize (anubis_perm r key Hk Hr). use_perm. Qed.
Lemma aria_works : works_when (fun r _ => N.even r = true /\ r < 2 ^ 27 - 1) aria_desc.
Proof.
  intros r key Hk [He Hr]. rewrite (even_half r He) in *. generalize (aria_perm (r / 2) key Hk Hr). use_perm.
Qed.

Lemma speck_works p : speck_good p -> works_when (fun r key =>
  (sp_k p < length key)%nat /\ speck_r p r key <> 0 /\ speck_r p r key * N.of_nat (sp_k p) < 2 ^ 32) (speck_desc p).
Proof.
  intros G r key Hk (H1 & H2 & H3). destruct (speck_perm_gen p G r key Hk H1 H2 H3) as (s & E & P).
  exists s. split; [exact E|]. split; [|exact P]. pose proof (sg_k p G). cbn. lia.
Qed.
Lemma simon_works p : simon_good p -> works_when (fun r key =>
  N.of_nat (simon_m p key) <= simon_r p r key /\ simon_r p r key * N.of_nat (si_k p) < 2 ^ 32) (simon_desc p).
Proof.
  intros G r key Hk (H1 & H2). destruct (simon_perm_gen p G r key Hk H1 H2) as (s & E & P).
  exists s. split; [exact E|]. split; [|exact P]. pose proof (ig_k p G). cbn. lia.
Qed.
Lemma threefish_works p : tf_good p -> (0 < tf_n p)%nat -> works_when (fun r _ => tf_rounds_ok p r) (threefish_desc p).
Proof.
  intros G Hn r key Hk H. destruct (tf_perm p r key G Hk H) as (s & E & P).
  exists s. split; [exact E|]. split; [|exact P]. cbn. lia.
Qed.
Lemma trax_works p : trax_good p -> works_when (fun r _ => (trax_r p r + 1) * (4 * N.of_nat (tr_n p)) < 2 ^ 32) (trax_desc p).
Proof.
  intros G r key Hk H. destruct (trax_perm p G r key Hk H) as (s & E & P).
  exists s. split; [exact E|]. split; [|exact P]. pose proof (xg_n p G). cbn. lia.
Qed.

(** ** Default rounds *)
Ltac dflt H := apply (works_default_when _ _ H); intros; repeat split; reflexivity.
Lemma tea_default : works_default tea_desc. Proof. dflt tea_works. Qed.
Lemma xtea_default : works_default xtea_desc. Proof. dflt xtea_works. Qed.
Lemma rc5_default : works_default rc5_desc. Proof. dflt rc5_works. Qed.
Lemma rc6_default : works_default rc6_desc. Proof. dflt rc6_works. Qed.
Lemma lea_default : works_default lea_desc. Proof. dflt lea_works. Qed.
Lemma crax_default : works_default crax_desc. Proof. dflt crax_works. Qed.
Lemma noekeon_default : works_default noekeon_desc. Proof. dflt noekeon_works. Qed.
Lemma rectangle_default : works_default rectangle_desc.
Proof. apply (works_default_when _ _ rectangle_works). intros; discriminate. Qed.
Lemma rc2_default : works_default rc2_desc.
Proof. apply (works_default_when _ _ rc2_works). now intros. Qed.
Lemma threeway_default : works_default threeway_desc. Proof. dflt threeway_works. Qed.
Lemma idea_default : works_default idea_desc. Proof. dflt idea_works. Qed.
Lemma rijndael128_default : works_default rijndael128_desc.
Proof.
  apply (works_default_when _ _ rijndael128_works). intros key Hk. destruct (rijndael128_default_ok key Hk) as [H1 H2]. split; [exact H1|]. lia.
Qed.
Lemma rijndael256_default key : key_ok 32 key -> (8 < length key)%nat -> exists s, bc_create rijndael256_desc 0 key = Ok s /\ works rijndael256_desc s.
Proof.
  intros Hk H9. apply (rijndael256_works 0 key Hk). destruct (rijndael256_default_ok key Hk H9) as [H1 H2]. split; [exact H1|]. lia.
Qed.
Lemma gost_default sb : works_default (gost_desc sb).
Proof. intros key Hk. generalize (gost_perm_default sb key Hk). use_perm. Qed.
Lemma trax_m_default : works_default (trax_desc trax_m). Proof. dflt (trax_works _ trax_m_good). Qed.
Lemma trax_l_default : works_default (trax_desc trax_l). Proof. dflt (trax_works _ trax_l_good). Qed.
Lemma threefish256_default : works_default (threefish_desc threefish256).
Proof. apply (works_default_when _ _ (threefish_works _ threefish256_good ltac:(cbn; lia))). reflexivity. Qed.
Lemma threefish512_default : works_default (threefish_desc threefish512).
Proof. apply (works_default_when _ _ (threefish_works _ threefish512_good ltac:(cbn; lia))). reflexivity. Qed.
Lemma threefish1024_default : works_default (threefish_desc threefish1024).
Proof. apply (works_default_when _ _ (threefish_works _ threefish1024_good ltac:(cbn; lia))). reflexivity. Qed.

Lemma seed_default : works_default seed_desc. Proof. dflt seed_works. Qed.
Lemma sm4_default : works_default sm4_desc. Proof. apply (works_default_when _ _ sm4_works). intros; split; [reflexivity|discriminate]. Qed.
Lemma skipjack_default : works_default skipjack_desc. Proof. apply (works_default_when _ _ skipjack_works). intros; now left. Qed.
Lemma cast5_default : works_default cast5_desc. Proof. dflt cast5_works. Qed.
Lemma des_default : works_default des_desc. Proof. apply (works_default_when _ _ des_works). now intros. Qed.
Lemma blowfish_default : works_default blowfish_desc. Proof. apply (works_default_when _ _ blowfish_works). intros; discriminate. Qed.
Lemma camellia_default : works_default camellia_desc. Proof. dflt camellia_works. Qed.
Lemma twofish_default : works_default twofish_desc. Proof. dflt twofish_works. Qed.
Lemma serpent_default : works_default serpent_desc. Proof. dflt serpent_works. Qed.
Lemma shacal2_default : works_default shacal2_desc. Proof. apply (works_default_when _ _ shacal2_works). intros; now left. Qed.
Lemma khazad_default : works_default khazad_desc. Proof. apply (works_default_when _ _ khazad_works). intros; discriminate. Qed.
Lemma anubis_default : works_default anubis_desc. Proof. apply (works_default_when _ _ anubis_works). intros; discriminate. Qed.
Lemma aria_default : works_default aria_desc. Proof. dflt aria_works. Qed.
Lemma safer_default sk key : key_ok 16 key -> length key = 8%nat \/ length key = 16%nat ->
  exists s, bc_create (safer_desc sk) 0 key = Ok s /\ works (safer_desc sk) s.
Proof. intros Hk Hl. apply (safer_works sk 0 key Hk). split; [exact Hl|reflexivity]. Qed.
Lemma saferpp_default key : key_ok 32 key -> length key = 16%nat \/ length key = 32%nat ->
  exists s, bc_create saferpp_desc 0 key = Ok s /\ works saferpp_desc s.
Proof. intros Hk Hl. apply (saferpp_works 0 key Hk). split; [exact Hl|reflexivity]. Qed.

Lemma words_bound k n m : (0 < k)%nat -> (n <= k * m)%nat -> (Nat.div (n + (k - 1)) k <= m)%nat.
Proof. intros Hk Hn. apply Nat.lt_succ_r, Nat.div_lt_upper_bound; lia. Qed.

Lemma simon_m_bound p k n m : (0 < si_k p)%nat -> (length k <= si_k p * m)%nat -> (si_min p <= n)%nat -> (m <= n)%nat -> (simon_m p k <= n)%nat.
Proof. intros H1 H2 H3 H4. unfold simon_m, simon_words. pose proof (words_bound _ _ _ H1 H2). lia. Qed.
Lemma simon32_default : works_default (simon_desc simon32).
Proof.
  apply (works_default_when _ _ (simon_works _ simon32_good)). intros key [_ [H1 H2]]. split; [|reflexivity].
  assert (simon_m simon32 key <= 4)%nat by (apply (simon_m_bound simon32 key 4 4); cbn in *; lia).
  cbn [simon_r simon32 si_def]. change (simon_r simon32 0 key) with 32. lia.
Qed.
Lemma simon64_default : works_default (simon_desc simon64).
Proof.
  apply (works_default_when _ _ (simon_works _ simon64_good)). intros key [_ [H1 H2]]. cbn in H2.
  assert (simon_m simon64 key <= 4)%nat by (apply (simon_m_bound simon64 key 4 4); cbn in *; lia).
  assert (simon_words simon64 key <= 4)%nat by (apply (words_bound 4 _ 4); lia).
  change (simon_r simon64 0 key) with (36 + 2 * N.of_nat (simon_words simon64 key)). change (si_k simon64) with 4%nat.
  split; [|change (2 ^ 32) with 4294967296]; lia.
Qed.
Lemma simon128_default : works_default (simon_desc simon128).
Proof.
  apply (works_default_when _ _ (simon_works _ simon128_good)). intros key [_ [H1 H2]]. cbn in H2.
  assert (simon_m simon128 key <= 4)%nat by (apply (simon_m_bound simon128 key 4 4); cbn in *; lia).
  change (simon_r simon128 0 key) with (match simon_words simon128 key with 3%nat => 69 | 4%nat => 72 | _ => 68 end).
  change (si_k simon128) with 8%nat. change (2 ^ 32) with 4294967296.
  destruct (simon_words simon128 key) as [|[|[|[|[|]]]]]; lia.
Qed.

(** Speck: every key longer than one word *)
Lemma speck_default p : speck_good p -> (forall n, 0 < sp_def p n /\ (n <= 4 -> sp_def p n * N.of_nat (sp_k p) < 2 ^ 32)) ->
  sp_maxkey p = (sp_k p * 4)%nat ->
  forall key, key_ok (sp_maxkey p) key -> (sp_k p < length key)%nat ->
  exists s, speck_create p 0 key = Ok s /\ works (speck_desc p) s.
Proof.
  intros G Hd Hm key Hk Hl. apply (speck_works p G 0 key Hk). pose proof (sg_k p G) as Hk0.
  assert (B : (speck_words p key <= 4)%nat) by (destruct Hk as [_ [_ Hk]]; apply words_bound; lia).
  unfold speck_r. cbn [N.eqb]. change (0 =? 0) with true. cbn iota.
  split; [exact Hl|]. destruct (Hd (N.of_nat (speck_words p key))) as [H1 H2]. split; [lia|]. apply H2. lia.
Qed.
Lemma speck32_default key : key_ok 8 key -> (2 < length key)%nat ->
  exists s, speck_create speck32 0 key = Ok s /\ works (speck_desc speck32) s.
Proof. apply (speck_default speck32 speck32_good); [|reflexivity]. intros n. cbn. split; [|intros _]; lia. Qed.
Lemma speck64_default key : key_ok 16 key -> (4 < length key)%nat ->
  exists s, speck_create speck64 0 key = Ok s /\ works (speck_desc speck64) s.
Proof. apply (speck_default speck64 speck64_good); [|reflexivity]. intros n. cbn [sp_def speck64 sp_k]. change (2 ^ 32) with 4294967296. lia. Qed.
Lemma speck128_default key : key_ok 32 key -> (8 < length key)%nat ->
  exists s, speck_create speck128 0 key = Ok s /\ works (speck_desc speck128) s.
Proof. apply (speck_default speck128 speck128_good); [|reflexivity]. intros n. cbn [sp_def speck128 sp_k]. change (2 ^ 32) with 4294967296. lia. Qed.

(** Shorter keys make the key schedule divide by zero. *)
Lemma speck_short p key : speck_good p -> (forall n, 1 < sp_def p n /\ (n <= 4 -> sp_def p n * N.of_nat (sp_k p) < 2 ^ 32)) ->
  sp_maxkey p = (sp_k p * 4)%nat -> key_ok (sp_maxkey p) key -> (length key <= sp_k p)%nat ->
  speck_create p 0 key = Err DivZero.
Proof.
  intros G Hd Hm Hk Hl. apply (speck_short_key p G 0 key Hk Hl); pose proof (sg_k p G) as Hk0;
  unfold speck_r; change (0 =? 0) with true; cbn iota.
  - apply Hd.
  - apply Hd. destruct Hk as [_ [_ Hk]]. pose proof (words_bound (sp_k p) (length key) 4) as B. unfold speck_words. lia.
Qed.
Lemma speck32_short key : key_ok 8 key -> (length key <= 2)%nat -> speck_create speck32 0 key = Err DivZero.
Proof. apply (speck_short speck32 key speck32_good); [|reflexivity]. intros n. cbn. split; [|intros _]; lia. Qed.
Lemma speck64_short key : key_ok 16 key -> (length key <= 4)%nat -> speck_create speck64 0 key = Err DivZero.
Proof. apply (speck_short speck64 key speck64_good); [|reflexivity]. intros n. cbn [sp_def speck64 sp_k]. change (2 ^ 32) with 4294967296. lia. Qed.
Lemma speck128_short key : key_ok 32 key -> (length key <= 8)%nat -> speck_create speck128 0 key = Err DivZero.
Proof. apply (speck_short speck128 key speck128_good); [|reflexivity]. intros n. cbn [sp_def speck128 sp_k]. change (2 ^ 32) with 4294967296. lia. Qed.

Lemma sound_default : Forall works_default sound_ciphers.
Proof.
  repeat apply Forall_cons; try apply Forall_nil.
  all: first [exact tea_default|exact xtea_default|exact rc5_default|exact rc6_default|exact simon32_default|
    exact simon64_default|exact simon128_default|exact threefish256_default|exact threefish512_default|
    exact threefish1024_default|exact lea_default|exact crax_default|exact trax_m_default|exact trax_l_default|
    exact noekeon_default|exact rectangle_default|exact rc2_default|exact threeway_default|apply gost_default|exact idea_default|exact rijndael128_default|
    exact seed_default|exact sm4_default|exact skipjack_default|exact cast5_default|exact des_default|exact blowfish_default|exact camellia_default|exact twofish_default|exact serpent_default|exact shacal2_default|exact khazad_default|exact anubis_default|exact aria_default].
Qed.

(** In the C code an odd number of four round groups makes encryption run one group more than
    decryption undoes. *)
Lemma threefish_odd_refuted : exists s pt ct, tf_create threefish256 4 [1] = Ok s /\ blk 32 pt /\
  tf_encrypt threefish256 s pt = Ok ct /\ tf_decrypt threefish256 s ct <> Ok pt.
Proof.
  eexists _, (repeat 0 32), _. split; [reflexivity|]. split; [split; [reflexivity|apply bytes_repeat0]|].
  split; [vm_compute; reflexivity|]. vm_compute. discriminate.
Qed.

Lemma works_bijective c s : works c s -> bijective (bc_bs c) (bc_enc c s) /\ bijective (bc_bs c) (bc_dec c s).
Proof. intros [_ [H1 H2]]. split; eapply perm_bijective; split; eassumption. Qed.
Lemma sound_bijective : Forall (fun c => forall key, key_ok (bc_maxkey c) key -> exists s, bc_create c 0 key = Ok s /\
  bijective (bc_bs c) (bc_enc c s) /\ undoes (bc_bs c) (bc_dec c s) (bc_enc c s)) sound_ciphers.
Proof.
  eapply Forall_impl; [|exact sound_default]. intros c H key Hk. destruct (H key Hk) as (s & E & W).
  exists s. split; [exact E|]. split; [now apply works_bijective|]. apply W.
Qed.

(** A round trip that fails, as a computation *)
Definition rt_bad (c : bcipher) (r : N) (key pt : list N) : bool :=
  match bc_create c r key with
  | Ok s => match bc_enc c s pt with
            | Ok ct => match bc_dec c s ct with
                       | Ok p => if list_eq_dec N.eq_dec p pt then false else true
                       | Err _ => true end
            | Err _ => false end
  | Err _ => false end.
Lemma rt_bad_ex c r key pt : rt_bad c r key pt = true ->
  exists s ct, bc_create c r key = Ok s /\ bc_enc c s pt = Ok ct /\ bc_dec c s ct <> Ok pt.
Proof.
  unfold rt_bad. destruct (bc_create c r key) as [s|] eqn:E; [|discriminate]. destruct (bc_enc c s pt) as [ct|] eqn:F; [|discriminate].
  intros H. exists s, ct. split; [reflexivity|]. split; [exact F|]. intros G. rewrite G in H. destruct (list_eq_dec N.eq_dec pt pt); [discriminate|congruence].
Qed.
Lemma twofish_bad : rt_bad twofish_desc 3 (repeat 0 16) (repeat 0 16) = true. Proof. vm_compute. reflexivity. Qed.
Lemma aria_bad : rt_bad aria_desc 13 (repeat 0 16) (repeat 0 16) = true. Proof. vm_compute. reflexivity. Qed.
Lemma blk_zero n : blk n (repeat 0 n).
Proof. split; [apply repeat_length|apply bytes_repeat0]. Qed.
Lemma twofish_odd_refuted : exists s pt ct, bc_create twofish_desc 3 (repeat 0 16) = Ok s /\ blk 16 pt /\
  twofish_encrypt s pt = Ok ct /\ twofish_decrypt s ct <> Ok pt.
Proof. destruct (rt_bad_ex _ _ _ _ twofish_bad) as (s & ct & A & B & C). exists s, (repeat 0 16), ct. split; [exact A|]. split; [apply blk_zero|]. split; [exact B|exact C]. Qed.
Lemma aria_odd_refuted : exists s pt ct, bc_create aria_desc 13 (repeat 0 16) = Ok s /\ blk 16 pt /\
  aria_encrypt s pt = Ok ct /\ aria_decrypt s ct <> Ok pt.
Proof. destruct (rt_bad_ex _ _ _ _ aria_bad) as (s & ct & A & B & C). exists s, (repeat 0 16), ct. split; [exact A|]. split; [apply blk_zero|]. split; [exact B|exact C]. Qed.
