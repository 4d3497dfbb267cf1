(** OMAC is CMAC and XCBC is RFC 3566. *)
From Coq Require Import NArith Arith List Bool Lia.
From Verif Require Import Lib.Word Lib.Res Lib.Bytes Lib.Bij Lib.Lists Lib.XorBytes Lib.WordsP Lib.MemLemmas Lib.BlockLemmas Spec.Words Spec.Block Spec.Cipher Spec.Modes Spec.Mac Spec.CbcMac
  Model.BlockApi Model.MacApi Model.Md Model.Omac Proof.MdP Proof.HashP Proof.MacP Proof.SkeinP Proof.SkeinHashP.
Import ListNotations.
Local Open Scope N_scope.

(** ** doubling *)
Lemma shift_cons x t : omac_shift (x :: t) = N.lor (byte (N.shiftl x 1)) (N.shiftr (nth 0 t 0) 7) :: omac_shift t.
Proof. unfold omac_shift. cbn [length seq map nth]. f_equal. rewrite <- seq_shift, map_map. reflexivity. Qed.
Lemma top_bit x : x < 256 -> N.shiftr x 7 <= 1 /\ N.shiftr x 7 * 256 + byte (N.shiftl x 1) = 2 * x.
Proof.
  intros H. rewrite N.shiftr_div_pow2, N.shiftl_mul_pow2. rewrite byte_mod. change (2 ^ 7) with 128. change (2 ^ 1) with 2.
  assert (Hd : x / 128 <= 1) by (apply N.lt_succ_r, N.div_lt_upper_bound; lia). split; [exact Hd|].
  pose proof (N.div_mod x 128 ltac:(discriminate)) as D. pose proof (N.mod_lt x 128 ltac:(discriminate)) as M. set (q := x / 128) in *. set (k := x mod 128) in *. clearbody q k.
  assert (E : x * 2 = 2 * k + q * 256) by lia. rewrite E, N.mod_add, N.mod_small by lia. lia.
Qed.
Lemma shift_byte x y : x < 256 -> y < 256 -> N.lor (byte (N.shiftl x 1)) (N.shiftr y 7) = byte (N.shiftl x 1) + N.shiftr y 7.
Proof.
  intros Hx Hy. destruct (top_bit y Hy) as [L _]. assert (C : N.shiftr y 7 = 0 \/ N.shiftr y 7 = 1) by lia. destruct C as [-> | ->]; [now rewrite N.lor_0_r, N.add_0_r|].
  assert (E : exists k, byte (N.shiftl x 1) = 2 * k).
  { destruct (top_bit x Hx) as [_ E]. exists (x - N.shiftr x 7 * 128). lia. }
  destruct E as [k ->]. destruct k; reflexivity.
Qed.
Lemma be_val_cons x t : be_val (x :: t) = x * 256 ^ N.of_nat (length t) + be_val t.
Proof.
  unfold be_val. cbn [rev]. rewrite <- (rev_length t). generalize (rev t). clear t. intros l. induction l as [|y l IH]; [cbn; lia|].
  cbn [app le_val length]. rewrite IH, Nat2N.inj_succ, N.pow_succ_r'. lia.
Qed.
Lemma shift_val l : bytes_ok l -> bytes_ok (omac_shift l) /\ 2 * be_val l = N.shiftr (nth 0 l 0) 7 * 256 ^ N.of_nat (length l) + be_val (omac_shift l).
Proof.
  induction l as [|x t IH]; intros H; [split; [constructor|reflexivity]|]. inversion_clear H as [|? ? Hx Ht]. destruct (IH Ht) as [B E]. rewrite shift_cons. cbn [nth].
  assert (H0 : nth 0 t 0 < 256) by (destruct t; [reflexivity|now inversion_clear Ht]).
  rewrite shift_byte by assumption. destruct (top_bit x Hx) as [L1 E1]. destruct (top_bit _ H0) as [L2 _]. split.
  - constructor; [|exact B]. assert (byte (N.shiftl x 1) < 255 \/ byte (N.shiftl x 1) = 255) as [C|C] by (rewrite byte_mod; pose proof (N.mod_lt (N.shiftl x 1) 256 ltac:(discriminate)); lia); lia.
  - rewrite !be_val_cons. assert (Ls : length (omac_shift t) = length t) by (unfold omac_shift; now rewrite map_length, seq_length). rewrite Ls.
    cbn [length]. rewrite Nat2N.inj_succ, N.pow_succ_r'. set (P := 256 ^ N.of_nat (length t)) in *. rewrite N.mul_add_distr_l, E. nia.
Qed.
Lemma length_shift l : length (omac_shift l) = length l.
Proof. unfold omac_shift. now rewrite map_length, seq_length. Qed.
Lemma le_bytes_lxor n : forall a b, le_bytes n (N.lxor a b) = xor_bytes (le_bytes n a) (le_bytes n b).
Proof.
  induction n as [|n IH]; intros a b; [reflexivity|]. cbn [le_bytes xor_bytes]. change 256 with (2 ^ 8). rewrite <- !N.land_ones, <- !N.shiftr_div_pow2, N.shiftr_lxor, IH. f_equal.
  apply N.bits_inj. intros i. rewrite N.lxor_spec, !N.land_spec, N.lxor_spec. now destruct (N.testbit a i), (N.testbit b i), (N.testbit (N.ones 8) i).
Qed.
Lemma xor_rev a : forall b, length a = length b -> rev (xor_bytes a b) = xor_bytes (rev a) (rev b).
Proof.
  induction a as [|x a IH]; intros [|y b] H; try discriminate; [reflexivity|]. cbn [xor_bytes rev]. injection H as H. rewrite IH by exact H.
  rewrite xor_app by (now rewrite !rev_length). reflexivity.
Qed.
Lemma be_bytes_lxor n a b : be_bytes n (N.lxor a b) = xor_bytes (be_bytes n a) (be_bytes n b).
Proof. unfold be_bytes. rewrite le_bytes_lxor. apply xor_rev. now rewrite !length_le_bytes. Qed.
Lemma reduce_xor2 len l z : length l = len -> length z = len -> omac_reduce len (xor_bytes l z) = xor_bytes l (omac_reduce len z).
Proof.
  intros H Hz. unfold omac_reduce. set (p := nth len omac_poly []).
  assert (X : forall a i v z, length a = len -> length z = len -> xor_at i v (xor_bytes a z) = xor_bytes a (xor_at i v z)) by (intros a i v y Ha Hy; apply upd_xor; congruence).
  assert (L : forall i v z, length z = len -> length (xor_at i v z) = len) by (intros i v y Hy; unfold xor_at; now rewrite length_upd).
  destruct (8 <=? len)%nat; rewrite !X by (repeat apply L; assumption); reflexivity.
Qed.
Lemma reduce_xor len l : length l = len -> omac_reduce len l = xor_bytes l (omac_reduce len (repeat 0 len)).
Proof. intros H. rewrite <- reduce_xor2 by (exact H || apply repeat_length). rewrite <- H at 3. now rewrite xor_zeros_r. Qed.
Lemma double_ok len R l : blk len l -> omac_reduce len (repeat 0 len) = be_bytes len R -> omac_double len l = gf_double len R l.
Proof.
  intros [Hl Hb] HR. unfold omac_double, gf_double. destruct (shift_val l Hb) as [B E]. rewrite E, Hl.
  assert (V : be_val (omac_shift l) < 256 ^ N.of_nat len) by (rewrite <- Hl, <- (length_shift l); now apply be_val_bound).
  assert (H0 : nth 0 l 0 < 256) by (destruct l; [reflexivity|now inversion_clear Hb]). destruct (top_bit _ H0) as [L _]. set (c := N.shiftr (nth 0 l 0) 7) in *. clearbody c.
  assert (Ev : be_bytes len (be_val (omac_shift l)) = omac_shift l) by (rewrite <- Hl, <- (length_shift l); now apply be_bytes_val).
  rewrite N.add_comm, N.mod_add, (N.mod_small _ _ V) by (apply N.pow_nonzero; discriminate). rewrite be_bytes_lxor, Ev.
  assert (C : c = 0 \/ c = 1) by lia. destruct C as [-> | ->]; cbv iota.
  - change (0 =? 0) with true. cbv iota. rewrite N.mul_0_l, N.add_0_r, (proj2 (N.leb_gt _ _)) by exact V.
    replace (be_bytes len 0) with (repeat 0 (length (omac_shift l))); [symmetry; apply xor_zeros_r|]. rewrite length_shift, Hl.
    unfold be_bytes. assert (Z : forall n, le_bytes n 0 = repeat 0 n) by (induction n as [|n IH]; [reflexivity|]; cbn [le_bytes repeat]; change (0 / 256) with 0; now rewrite IH). rewrite Z.
    clear. induction len as [|n IH]; [reflexivity|]. cbn [repeat rev]. rewrite <- IH. clear. induction n as [|n IH]; [reflexivity|]. cbn [repeat app]. now rewrite IH.
  - change (1 =? 0) with false. cbv iota. rewrite (proj2 (N.leb_le _ _)) by lia. rewrite reduce_xor, HR by (now rewrite length_shift). reflexivity.
Qed.
Lemma blk_double len R l : blk len (gf_double len R l).
Proof. apply blk_be_bytes. Qed.
Lemma poly_ok bs R : cmac_poly bs = Some R -> omac_reduce bs (repeat 0 bs) = be_bytes bs R /\ (0 < bs < 256)%nat.
Proof.
  intros H.
  assert (C : In bs [4; 6; 8; 12; 16; 32; 64; 128]%nat).
  { destruct (in_dec Nat.eq_dec bs [4; 6; 8; 12; 16; 32; 64; 128]%nat) as [I|I]; [exact I|exfalso].
    assert (forallb (fun b => match cmac_poly b with None => true | _ => existsb (Nat.eqb b) [4; 6; 8; 12; 16; 32; 64; 128]%nat end) (seq 0 129) = true) as A by reflexivity.
    destruct (Nat.lt_ge_cases bs 129) as [L|L].
    - rewrite forallb_forall in A. specialize (A bs ltac:(apply in_seq; lia)). rewrite H in A. apply existsb_exists in A. destruct A as (x & Hx & E). apply Nat.eqb_eq in E. now subst x.
    - unfold cmac_poly in H. do 129 (destruct bs as [|bs]; [lia|]). discriminate. }
  cbn [In] in C. destruct C as [<-|[<-|[<-|[<-|[<-|[<-|[<-|[<-|[]]]]]]]]]; cbn in H; injection H as <-; (split; [vm_compute; reflexivity|split; apply Nat.ltb_lt; reflexivity]).
Qed.

(** ** the chain *)
Lemma reads_ok l i n : (i + n <= length l)%nat -> reads l i n = Ok (slice i n l).
Proof.
  revert i. induction n as [|n IH]; intros i H; [reflexivity|]. cbn [reads]. rewrite (get_ok l i 0) by lia. cbn [bind]. rewrite IH by lia. cbn [bind]. f_equal.
  unfold slice. rewrite (skipn_cons l i 0) by lia. reflexivity.
Qed.
Lemma room_ok i n len : (i + n <= len)%nat -> (len < 256)%nat -> room32 i n len = true.
Proof. intros H1 H2. unfold room32. apply N.leb_le. change (2 ^ 32) with 4294967296. rewrite N.mod_small; lia. Qed.

Section Chain.
  Variables (bs : nat) (F : list N -> list N).
  Hypothesis Hbs : (0 < bs)%nat.
  Hypothesis HF : forall b, blk bs b -> blk bs (F b).
  Let cv := cbc_value bs F.
  Lemma cv_S q M : cv (S q) M = F (xor_bytes (cv q M) (block bs q M)).
  Proof. unfold cv, cbc_value. rewrite seq_S, fold_left_app. reflexivity. Qed.
  Lemma cv_app q M T : (q * bs <= length M)%nat -> cv q (M ++ T) = cv q M.
  Proof.
    induction q as [|q IH]; intros H; [reflexivity|]. rewrite !cv_S, IH by (cbn in H; lia). do 2 f_equal. unfold block, slice. cbn [Nat.mul] in H.
    rewrite skipn_app, firstn_app, skipn_length. replace (bs - (length M - q * bs))%nat with 0%nat by lia. cbn [firstn]. now rewrite app_nil_r.
  Qed.
  Lemma blk_block q M : bytes_ok M -> (S q * bs <= length M)%nat -> blk bs (block bs q M).
  Proof.
    intros Hb H. unfold block, slice. cbn [Nat.mul] in H. split; [rewrite firstn_length, skipn_length; lia|].
    now apply bytes_firstn, bytes_skipn.
  Qed.
  Lemma blk_cv q M : bytes_ok M -> (q * bs <= length M)%nat -> blk bs (cv q M).
  Proof.
    induction q as [|q IH]; intros Hb H; [split; [apply repeat_length|apply bytes_repeat0]|]. rewrite cv_S. apply HF. cbn [Nat.mul] in H. apply blk_xor; [apply IH; [exact Hb|lia]|].
    apply blk_block; [exact Hb|cbn [Nat.mul]; lia].
  Qed.
  Lemma last_q q i (M : list N) : (q * bs + i = length M)%nat -> (i <= bs)%nat -> (i = 0%nat -> M = []) -> ((length M - 1) / bs)%nat = q.
  Proof.
    intros H Hi H0. destruct i as [|i].
    - rewrite (H0 eq_refl) in *. cbn [length] in H. assert (q = 0%nat) by (destruct q; [reflexivity|cbn in H; lia]). subst q. apply Nat.div_small. cbn [length]. lia.
    - rewrite <- H. replace (q * bs + S i - 1)%nat with (i + q * bs)%nat by lia. rewrite Nat.div_add by lia. rewrite Nat.div_small by lia. lia.
  Qed.
  (** the last block *)
  Lemma last_whole q M Ka Kb : (q * bs + bs = length M)%nat -> cbc_mac bs F Ka Kb M = F (xor_bytes (xor_bytes (cv q M) (skipn (q * bs) M)) Ka).
  Proof.
    intros H. unfold cbc_mac. rewrite (last_q q bs M) by (try lia; apply le_n). rewrite skipn_length. replace (length M - q * bs)%nat with bs by lia. rewrite Nat.eqb_refl. now rewrite xor_assoc.
  Qed.
  Lemma last_padded q i M Ka Kb : (q * bs + i = length M)%nat -> (i < bs)%nat -> (i = 0%nat -> M = []) ->
    cbc_mac bs F Ka Kb M = F (xor_bytes (xor_bytes (cv q M) (zero_pad bs (skipn (q * bs) M ++ [0x80]))) Kb).
  Proof.
    intros H Hi H0. unfold cbc_mac. rewrite (last_q q i M) by (try lia; assumption). rewrite skipn_length. replace (length M - q * bs)%nat with i by lia.
    destruct (Nat.eqb_spec i bs) as [E|_]; [lia|]. now rewrite xor_assoc.
  Qed.
  Lemma xor_padded c l i : length c = bs -> length l = i -> (i < bs)%nat ->
    xor_bytes c (zero_pad bs (l ++ [0x80])) = xor_bytes c l ++ [N.lxor 0x80 (nth i c 0)] ++ skipn (S i) c.
  Proof.
    intros Hc Hl Hi. unfold zero_pad. rewrite app_length, Hl. cbn [length].
    assert (Ec : c = firstn (i + 1) c ++ skipn (S i) c) by (rewrite Nat.add_1_r; symmetry; apply firstn_skipn).
    rewrite Ec at 1. rewrite xor_app by (rewrite firstn_length, app_length; cbn [length]; lia).
    replace (bs - (i + 1))%nat with (length (skipn (S i) c)) by (rewrite skipn_length; lia). rewrite xor_zeros_r.
    rewrite app_assoc. f_equal. replace (i + 1)%nat with (length (l ++ [128])) by (rewrite app_length; cbn [length]; lia). rewrite xor_short, xor_snoc by lia. now rewrite Hl, N.lxor_comm.
  Qed.
End Chain.

(** what the MACs need of the block cipher object *)
Definition enc_fn (c : bcipher) (s : bc_st c) (F : list N -> list N) : Prop := forall b, blk (bc_bs c) b -> bc_enc c s b = Ok (F b) /\ blk (bc_bs c) (F b).
Lemma works_fn c s : works c s -> enc_fn c s (fn (bc_enc c s)).
Proof. intros (_ & U & _) b [Hl Hb]. destruct (U b Hl Hb) as (ct & E & L & B & _). unfold fn. rewrite E. split; [reflexivity|split; assumption]. Qed.

Section Omac.
  Variables (c : bcipher) (b : bc_st c) (F : list N -> list N) (R : N).
  Let bs := bc_bs c.
  Hypothesis HF : enc_fn c b F.
  Hypothesis HR : omac_reduce bs (repeat 0 bs) = be_bytes bs R.
  Hypothesis Hbs : (0 < bs < 256)%nat.
  Let K1 := gf_double bs R (F (repeat 0 bs)).
  Let K2 := gf_double bs R K1.
  Let cv := cbc_value bs F.
  Let HFb : forall x, blk bs x -> blk bs (F x). Proof. intros x H. now apply HF. Qed.
  Definition om_rep (M : list N) (s : omac c) : Prop :=
    om_block c s = b /\ om_lu c s = K1 /\ om_lu2 c s = K2 /\ om_f c s = false /\ bytes_ok M /\
    exists q, (q * bs + om_i c s = length M)%nat /\ (om_i c s <= bs)%nat /\ (om_i c s = 0%nat -> M = []) /\ om_prev c s = cv q M /\
      (om_i c s <= length (om_buf c s))%nat /\ firstn (om_i c s) (om_buf c s) = xor_bytes (cv q M) (skipn (q * bs) M).
  Lemma om_init buf : exists s, omac_init c b buf = Ok s /\ om_rep [] s.
  Proof.
    unfold omac_init. fold bs. assert (Z : blk bs (repeat 0 bs)) by (split; [apply repeat_length|apply bytes_repeat0]). destruct (HF _ Z) as [-> B]. cbn [bind]. eexists. split; [reflexivity|].
    unfold om_rep. cbn [om_block om_lu om_lu2 om_f om_i om_prev om_buf]. rewrite (double_ok bs R) by assumption. fold K1. rewrite (double_ok bs R) by (assumption || apply blk_double). fold K2.
    split; [reflexivity|]. split; [reflexivity|]. split; [reflexivity|]. split; [reflexivity|]. split; [constructor|]. exists 0%nat. cbn [Nat.mul Nat.add length skipn firstn].
    split; [reflexivity|]. split; [lia|]. split; [reflexivity|]. split; [reflexivity|]. split; [lia|]. now destruct (cv 0 []).
  Qed.
  Lemma put_prefix buf i v : (i <= length buf)%nat -> (i < bs)%nat -> exists buf', bput bs buf i v = Ok buf' /\ (S i <= length buf')%nat /\ firstn (S i) buf' = firstn i buf ++ [v].
  Proof.
    intros H Hi. unfold bput. rewrite (proj2 (Nat.leb_gt _ _)) by exact Hi. destruct (Nat.ltb_spec i (length buf)) as [L|L].
    - eexists. split; [reflexivity|]. rewrite length_upd. split; [lia|]. rewrite (firstn_S_nth _ _ 0) by (rewrite length_upd; lia). rewrite nth_upd_eq by exact L. f_equal.
      apply (nth_ext _ _ 0 0); [rewrite !firstn_length, length_upd; lia|]. intros j Hj. rewrite firstn_length, length_upd in Hj. rewrite !nth_firstn by lia. apply nth_upd_neq. lia.
    - assert (E : i = length buf) by lia. rewrite (proj2 (Nat.eqb_eq _ _)) by exact E. eexists. split; [reflexivity|]. rewrite app_length. cbn [length]. split; [lia|].
      rewrite !firstn_all2 by (rewrite ?app_length; cbn [length]; lia). reflexivity.
  Qed.
  Lemma om_byte M s x : om_rep M s -> x < 256 -> exists s', omac_byte c s x = Ok s' /\ om_rep (M ++ [x]) s'.
  Proof.
    intros (Eb & El & El2 & Ef & BM & q & Hq & Hi & H0 & Ep & Lb & Eu) Hx.
    assert (X : exists s1 q1, (if (om_i c s =? bs)%nat
        then let* p := enc_buf c (om_block c s) (om_buf c s) in
             Ok {| om_block := om_block c s; om_lu := om_lu c s; om_lu2 := om_lu2 c s; om_prev := p; om_buf := om_buf c s; om_i := 0; om_f := om_f c s |}
        else Ok s) = Ok s1 /\ om_block c s1 = b /\ om_lu c s1 = K1 /\ om_lu2 c s1 = K2 /\ om_f c s1 = false /\
      (q1 * bs + om_i c s1 = length M)%nat /\ (om_i c s1 < bs)%nat /\ om_prev c s1 = cv q1 M /\ (om_i c s1 <= length (om_buf c s1))%nat /\
      firstn (om_i c s1) (om_buf c s1) = xor_bytes (cv q1 M) (skipn (q1 * bs) M)).
    { destruct (Nat.eqb_spec (om_i c s) bs) as [E|E].
      - rewrite E in *. unfold enc_buf. fold bs. rewrite (proj2 (Nat.ltb_ge _ _)) by exact Lb. rewrite Eu, Eb.
        assert (Sk : skipn (q * bs) M = block bs q M) by (unfold block, slice; symmetry; apply firstn_all2; rewrite skipn_length; lia).
        assert (Bx : blk bs (xor_bytes (cv q M) (block bs q M))).
        { apply blk_xor; [apply blk_cv; try assumption; lia|apply blk_block; try exact BM; cbn [Nat.mul]; lia]. }
        rewrite Sk. destruct (HF _ Bx) as [-> _]. cbn [bind]. eexists _, (S q). split; [reflexivity|]. cbn [om_block om_lu om_lu2 om_f om_i om_prev om_buf].
        split; [reflexivity|]. split; [exact El|]. split; [exact El2|]. split; [exact Ef|]. cbn [Nat.mul]. split; [lia|]. split; [lia|]. split; [symmetry; apply cv_S|]. split; [lia|].
        cbn [firstn]. rewrite skipn_all2 by lia. now destruct (cv (S q) M).
      - exists s, q. split; [reflexivity|]. split; [exact Eb|]. split; [exact El|]. split; [exact El2|]. split; [exact Ef|]. split; [exact Hq|]. split; [lia|]. split; [exact Ep|]. split; [exact Lb|exact Eu]. }
    unfold omac_byte. fold bs. destruct X as (s1 & q1 & -> & Eb1 & El1 & El21 & Ef1 & Hq1 & Hi1 & Ep1 & Lb1 & Eu1). cbn [bind].
    assert (Bc : blk bs (cv q1 M)) by (apply blk_cv; try assumption; lia).
    rewrite (get_ok _ _ 0) by (rewrite Ep1, (proj1 Bc); exact Hi1). cbn [bind].
    destruct (put_prefix (om_buf c s1) (om_i c s1) (N.lxor (nth (om_i c s1) (om_prev c s1) 0) x) Lb1 Hi1) as (buf' & -> & L' & E'). cbn [bind]. eexists. split; [reflexivity|].
    unfold om_rep. cbn [om_block om_lu om_lu2 om_f om_i om_prev om_buf]. repeat (split; [assumption|]).
    split; [apply bytes_app; split; [exact BM|now constructor]|]. exists q1. rewrite app_length. cbn [length]. split; [lia|]. split; [lia|]. split; [discriminate|].
    assert (C1 : cv q1 (M ++ [x]) = cv q1 M) by (apply cv_app; lia). rewrite C1. split; [exact Ep1|]. split; [exact L'|]. rewrite E', Eu1, Ep1. rewrite skipn_app.
    replace (q1 * bs - length M)%nat with 0%nat by lia. cbn [skipn]. rewrite xor_snoc by (rewrite skipn_length, (proj1 Bc); lia). do 3 f_equal. rewrite skipn_length. f_equal. lia.
  Qed.
  Lemma om_input l : forall M s, om_rep M s -> bytes_ok l -> exists s', omac_input c s l = Ok s' /\ om_rep (M ++ l) s'.
  Proof.
    induction l as [|x l IH]; intros M s H Hl; cbn [omac_input].
    - exists s. rewrite app_nil_r. now split.
    - inversion_clear Hl as [|? ? Hx Hl']. destruct (om_byte M s x H Hx) as (s1 & -> & H1). cbn [bind]. destruct (IH (M ++ [x]) s1 H1 Hl') as (s2 & E2 & H2).
      exists s2. split; [exact E2|]. now rewrite <- app_assoc in H2.
  Qed.
  Lemma om_feed parts : forall M s, om_rep M s -> Forall bytes_ok parts -> exists s', mfeed (omac_desc c) s parts = Ok s' /\ om_rep (M ++ concat parts) s'.
  Proof.
    induction parts as [|l parts IH]; intros M s H Hp; cbn [mfeed concat].
    - exists s. rewrite app_nil_r. now split.
    - inversion_clear Hp as [|? ? Hl Hp']. unfold mac_input. cbn [mc_input omac_desc]. destruct (om_input l M s H Hl) as (s1 & -> & H1). cbn [bind].
      destruct (IH _ s1 H1 Hp') as (s2 & E2 & H2). exists s2. split; [exact E2|]. now rewrite <- app_assoc in H2.
  Qed.
  Let T := cbc_mac bs F K1 K2.
  Lemma om_finish M s : om_rep M s -> exists s', omac_finish c s = Ok s' /\ om_f c s' = true /\ om_i c s' = 0%nat /\ om_buf c s' = T M /\ blk bs (T M).
  Proof.
    intros (Eb & El & El2 & Ef & BM & q & Hq & Hi & H0 & Ep & Lb & Eu). unfold omac_finish. fold bs.
    assert (Bc : blk bs (cv q M)) by (apply blk_cv; try assumption; lia).
    assert (B1 : blk bs K1) by apply blk_double. assert (B2 : blk bs K2) by apply blk_double.
    assert (Bs : bytes_ok (skipn (q * bs) M)) by (now apply bytes_skipn).
    set (u := if (om_i c s =? bs)%nat then xor_list (om_buf c s) (om_lu c s)
      else xor_list (firstn (om_i c s) (om_buf c s) ++ [N.lxor 0x80 (nth (om_i c s) (om_prev c s) 0)] ++ skipn (S (om_i c s)) (om_prev c s)) (om_lu2 c s)).
    assert (X : exists y, blk bs y /\ T M = F y /\ (length u <? bs)%nat = false /\ firstn bs u = y).
    { unfold u, xor_list. destruct (Nat.eqb_spec (om_i c s) bs) as [E|E].
      - rewrite E in *. rewrite xor_list_bytes, El. exists (xor_bytes (xor_bytes (cv q M) (skipn (q * bs) M)) K1). split; [|split; [|split]].
        + apply blk_xor; [|exact B1]. apply blk_xor; [exact Bc|]. split; [rewrite skipn_length; lia|exact Bs].
        + unfold T. now apply last_whole.
        + apply Nat.ltb_ge. rewrite length_xor, (proj1 B1). lia.
        + rewrite xor_firstn, Eu. rewrite (firstn_all2 K1) by (rewrite (proj1 B1); apply le_n). reflexivity.
      - rewrite xor_list_bytes, El2, Ep. assert (L : length (skipn (q * bs) M) = om_i c s) by (rewrite skipn_length; lia). assert (Hlt : (om_i c s < bs)%nat) by lia.
        rewrite Eu. pose proof (xor_padded bs (proj1 Hbs) (cv q M) (skipn (q * bs) M) (om_i c s) (proj1 Bc) L Hlt) as P. cbn [app] in P |- *. rewrite <- P. clear P.
        assert (Bz : blk bs (zero_pad bs (skipn (q * bs) M ++ [128]))).
        { unfold zero_pad. split; [rewrite !app_length, repeat_length; cbn [length]; rewrite L; lia|]. apply bytes_app. split; [|apply bytes_repeat0]. apply bytes_app. split; [exact Bs|]. now constructor. }
        assert (By : blk bs (xor_bytes (xor_bytes (cv q M) (zero_pad bs (skipn (q * bs) M ++ [128]))) K2)) by (apply blk_xor; [now apply blk_xor|exact B2]).
        eexists. split; [exact By|]. split; [|split].
        + unfold T. apply (last_padded bs F ltac:(lia) q (om_i c s)); assumption.
        + apply Nat.ltb_ge. rewrite (proj1 By). apply le_n.
        + apply firstn_all2. rewrite (proj1 By). apply le_n. }
    destruct X as (y & By & Ey & Ly & Fy). unfold enc_buf. fold bs. rewrite Ly, Fy, Eb. destruct (HF y By) as [-> BF]. cbn [bind]. eexists. split; [reflexivity|]. cbn [om_f om_i om_buf].
    rewrite Ey. auto.
  Qed.
  Lemma om_tags_done lens : forall s, om_f c s = true -> length (om_buf c s) = bs -> (om_i c s + list_sum lens <= bs)%nat ->
    mtags (omac_desc c) s lens = Ok (slice (om_i c s) (list_sum lens) (om_buf c s)).
  Proof.
    induction lens as [|n lens IH]; intros s Hf Lb Hl; [reflexivity|]. cbn [list_sum fold_right] in *. fold (list_sum lens) in *.
    cbn [mtags]. unfold mac_tag. cbn [mc_tag omac_desc]. unfold omac_tag. rewrite Hf. cbn [bind]. fold bs.
    rewrite room_ok by lia. cbn [assert_]. rewrite reads_ok by lia. cbn [bind fst snd]. rewrite IH; cbn [om_f om_buf om_i]; try assumption; [|lia].
    cbn [bind]. f_equal. unfold slice. rewrite firstn_plus. f_equal. rewrite skipn_skipn. f_equal. f_equal. lia.
  Qed.
  Lemma om_tags M s lens : om_rep M s -> (list_sum lens <= bs)%nat -> mtags (omac_desc c) s lens = Ok (firstn (list_sum lens) (T M)) /\ blk bs (T M).
  Proof.
    intros H Hl. destruct (om_finish M s H) as (s1 & E1 & F1 & I1 & B1 & BT). split; [|exact BT].
    destruct lens as [|n lens]; [reflexivity|]. transitivity (mtags (omac_desc c) s1 (n :: lens)).
    - cbn [mtags]. unfold mac_tag. cbn [mc_tag omac_desc]. unfold omac_tag. destruct H as (_ & _ & _ & -> & _). rewrite E1, F1. reflexivity.
    - rewrite om_tags_done; [|exact F1|rewrite B1; apply BT|rewrite I1; exact Hl]. now rewrite I1, B1.
  Qed.
  Theorem omac_gives s0 buf : s0 = omac_init c b buf -> mac_gives (omac_desc c) s0 (at_most bs) (fun _ => True) (cmac bs F R).
  Proof.
    intros ->. apply gives_intro. intros parts Hb _. destruct (om_init buf) as (s & -> & Rs). destruct (om_feed parts [] s Rs Hb) as (s1 & E1 & R1). cbn [app] in R1.
    change (cmac bs F R (concat parts)) with (T (concat parts)). destruct (om_tags _ s1 [] R1 ltac:(cbn; lia)) as [_ BT]. split; [apply BT|].
    split; [intros n Hn; unfold at_most in Hn; cbn in Hn; rewrite (proj1 BT); lia|]. intros lens Hl. unfold tag_of. cbn [bind]. rewrite E1. cbn [bind]. now apply om_tags.
  Qed.
End Omac.
(** create and recreate *)
Theorem omac_computes c r key n b F R : bc_create c r key = Ok b -> (0 < length key)%nat -> enc_fn c b F -> cmac_poly (bc_bs c) = Some R -> (n <= bc_bs c)%nat ->
  mac_computes (omac_desc c) r key n (at_most (bc_bs c)) (fun _ => True) (cmac (bc_bs c) F R).
Proof.
  intros Eb Hk HF HR Hn. destruct (poly_ok _ _ HR) as [H1 H2]. apply computes_of; [|unfold at_most; cbn; lia].
  unfold mac_create. rewrite assert_true by (now apply Nat.ltb_lt). cbn [mc_create omac_desc]. unfold omac_create. rewrite Eb. cbn [bind].
  exact (omac_gives c b F R HF H1 H2 _ [] eq_refl).
Qed.
Theorem omac_regives c s r key n b F R : bc_recreate c (om_block c s) r key = Ok b -> (0 < length key)%nat -> enc_fn c b F -> cmac_poly (bc_bs c) = Some R ->
  mac_gives (omac_desc c) (mac_recreate (omac_desc c) s r key n) (at_most (bc_bs c)) (fun _ => True) (cmac (bc_bs c) F R).
Proof.
  intros Eb Hk HF HR. destruct (poly_ok _ _ HR) as [H1 H2].
  unfold mac_recreate. rewrite assert_true by (now apply Nat.ltb_lt). cbn [mc_recreate omac_desc]. unfold omac_recreate. rewrite Eb. cbn [bind].
  exact (omac_gives c b F R HF H1 H2 _ (om_buf c s) eq_refl).
Qed.

Section Xcbc.
  Variables (c : bcipher) (b : bc_st c) (F : list N -> list N) (K2 K3 : list N).
  Let bs := bc_bs c.
  Hypothesis HF : enc_fn c b F.
  Hypothesis Hbs : (0 < bs < 256)%nat.
  Hypothesis B2 : blk bs K2.
  Hypothesis B3 : blk bs K3.
  Let cv := cbc_value bs F.
  Let HFx : forall x, blk bs x -> blk bs (F x). Proof. intros x H. now apply HF. Qed.
  Definition xc_rep (M : list N) (s : xcbc c) : Prop :=
    xc_block c s = b /\ xc_k2 c s = K2 /\ xc_k3 c s = K3 /\ xc_f c s = false /\ bytes_ok M /\
    exists q, (q * bs + xc_i c s = length M)%nat /\ (xc_i c s <= bs)%nat /\ (xc_i c s = 0%nat -> M = []) /\
      xc_buf c s = xor_bytes (cv q M) (zero_pad bs (skipn (q * bs) M)).
  Lemma pad_put l x : (length l < bs)%nat -> upd (zero_pad bs l) (length l) (N.lxor (nth (length l) (zero_pad bs l) 0) x) = zero_pad bs (l ++ [x]).
  Proof.
    intros H. unfold zero_pad. rewrite app_length. cbn [length]. replace (bs - length l)%nat with (S (bs - (length l + 1))) by lia. cbn [repeat].
    generalize (repeat 0 (bs - (length l + 1))). intros z. clear. induction l as [|y l IH]; [reflexivity|]. cbn [length app nth upd]. now rewrite IH.
  Qed.
  Lemma length_pad l : (length l <= bs)%nat -> length (zero_pad bs l) = bs.
  Proof. intros H. unfold zero_pad. rewrite app_length, repeat_length. lia. Qed.
  Lemma bytes_pad l : bytes_ok l -> bytes_ok (zero_pad bs l).
  Proof. intros H. unfold zero_pad. apply bytes_app. split; [exact H|apply bytes_repeat0]. Qed.
  Lemma pad_whole l : length l = bs -> zero_pad bs l = l.
  Proof. intros H. unfold zero_pad. rewrite H, Nat.sub_diag. apply app_nil_r. Qed.
  Lemma xc_byte M s x : xc_rep M s -> x < 256 -> exists s', xcbc_byte c s x = Ok s' /\ xc_rep (M ++ [x]) s'.
  Proof.
    intros (Eb & E2 & E3 & Ef & BM & q & Hq & Hi & H0 & Eu) Hx.
    assert (X : exists s1 q1, (if (xc_i c s =? bs)%nat
        then let* y := bc_enc c (xc_block c s) (xc_buf c s) in
             Ok {| xc_block := xc_block c s; xc_buf := y; xc_k2 := xc_k2 c s; xc_k3 := xc_k3 c s; xc_i := 0; xc_f := xc_f c s |}
        else Ok s) = Ok s1 /\ xc_block c s1 = b /\ xc_k2 c s1 = K2 /\ xc_k3 c s1 = K3 /\ xc_f c s1 = false /\
      (q1 * bs + xc_i c s1 = length M)%nat /\ (xc_i c s1 < bs)%nat /\ xc_buf c s1 = xor_bytes (cv q1 M) (zero_pad bs (skipn (q1 * bs) M))).
    { destruct (Nat.eqb_spec (xc_i c s) bs) as [E|E].
      - rewrite E in *. rewrite Eu, Eb.
        assert (Sk : zero_pad bs (skipn (q * bs) M) = block bs q M).
        { rewrite pad_whole by (rewrite skipn_length; lia). unfold block, slice. symmetry. apply firstn_all2. rewrite skipn_length. lia. }
        assert (Bx : blk bs (xor_bytes (cv q M) (block bs q M))).
        { apply blk_xor; [apply blk_cv; try assumption; lia|apply blk_block; try exact BM; cbn [Nat.mul]; lia]. }
        rewrite Sk. destruct (HF _ Bx) as [-> _]. cbn [bind]. eexists _, (S q). split; [reflexivity|]. cbn [xc_block xc_k2 xc_k3 xc_f xc_i xc_buf].
        split; [reflexivity|]. split; [exact E2|]. split; [exact E3|]. split; [exact Ef|]. cbn [Nat.mul]. split; [lia|]. split; [lia|].
        rewrite skipn_all2 by lia. unfold zero_pad. cbn [length app]. rewrite Nat.sub_0_r.
        assert (EC : cv (S q) M = F (xor_bytes (cv q M) (block bs q M))) by apply cv_S. rewrite EC. assert (LF : length (F (xor_bytes (cv q M) (block bs q M))) = bs) by apply (HFx _ Bx).
        pose proof (xor_zeros_r (F (xor_bytes (cv q M) (block bs q M)))) as Z. rewrite LF in Z. now rewrite Z.
      - exists s, q. split; [reflexivity|]. repeat (split; [assumption|]). split; [lia|exact Eu]. }
    unfold xcbc_byte. fold bs. destruct X as (s1 & q1 & -> & Eb1 & E21 & E31 & Ef1 & Hq1 & Hi1 & Eu1). cbn [bind].
    assert (Bc : blk bs (cv q1 M)) by (apply blk_cv; try assumption; lia).
    assert (Ls : length (skipn (q1 * bs) M) = xc_i c s1) by (rewrite skipn_length; lia).
    assert (Lz : length (zero_pad bs (skipn (q1 * bs) M)) = bs) by (apply length_pad; lia).
    rewrite (get_ok _ _ 0) by (rewrite Eu1, length_xor, (proj1 Bc), Lz; lia). cbn [bind]. eexists. split; [reflexivity|].
    unfold xc_rep. cbn [xc_block xc_k2 xc_k3 xc_f xc_i xc_buf]. repeat (split; [assumption|]).
    split; [apply bytes_app; split; [exact BM|now constructor]|]. exists q1. rewrite app_length. cbn [length]. split; [lia|]. split; [lia|]. split; [discriminate|].
    assert (C1 : cv q1 (M ++ [x]) = cv q1 M) by (apply cv_app; lia). rewrite C1, Eu1, upd_xor by (rewrite Lz; apply Bc). f_equal. rewrite <- Ls, pad_put by lia.
    rewrite skipn_app. replace (q1 * bs - length M)%nat with 0%nat by lia. reflexivity.
  Qed.
  Lemma xc_input l : forall M s, xc_rep M s -> bytes_ok l -> exists s', xcbc_input c s l = Ok s' /\ xc_rep (M ++ l) s'.
  Proof.
    induction l as [|x l IH]; intros M s H Hl; cbn [xcbc_input].
    - exists s. rewrite app_nil_r. now split.
    - inversion_clear Hl as [|? ? Hx Hl']. destruct (xc_byte M s x H Hx) as (s1 & -> & H1). cbn [bind]. destruct (IH (M ++ [x]) s1 H1 Hl') as (s2 & E2 & H2).
      exists s2. split; [exact E2|]. now rewrite <- app_assoc in H2.
  Qed.
  Lemma xc_feed parts : forall M s, xc_rep M s -> Forall bytes_ok parts -> exists s', mfeed (xcbc_desc c) s parts = Ok s' /\ xc_rep (M ++ concat parts) s'.
  Proof.
    induction parts as [|l parts IH]; intros M s H Hp; cbn [mfeed concat].
    - exists s. rewrite app_nil_r. now split.
    - inversion_clear Hp as [|? ? Hl Hp']. unfold mac_input. cbn [mc_input xcbc_desc]. destruct (xc_input l M s H Hl) as (s1 & -> & H1). cbn [bind].
      destruct (IH _ s1 H1 Hp') as (s2 & E2 & H2). exists s2. split; [exact E2|]. now rewrite <- app_assoc in H2.
  Qed.
  Let T := cbc_mac bs F K2 K3.
  Lemma xc_finish M s : xc_rep M s -> exists s', xcbc_finish c s = Ok s' /\ xc_f c s' = true /\ xc_i c s' = 0%nat /\ xc_buf c s' = T M /\ blk bs (T M).
  Proof.
    intros (Eb & E2 & E3 & Ef & BM & q & Hq & Hi & H0 & Eu). unfold xcbc_finish. fold bs.
    assert (Bc : blk bs (cv q M)) by (apply blk_cv; try assumption; lia).
    assert (Bs : bytes_ok (skipn (q * bs) M)) by (now apply bytes_skipn).
    assert (L : length (skipn (q * bs) M) = xc_i c s) by (rewrite skipn_length; lia).
    set (u := if (xc_i c s =? bs)%nat then xor_list (xc_buf c s) (xc_k2 c s) else xor_list (xor_at (xc_i c s) 0x80 (xc_buf c s)) (xc_k3 c s)).
    assert (X : blk bs u /\ T M = F u).
    { unfold u, xor_list. destruct (Nat.eqb_spec (xc_i c s) bs) as [E|E]; rewrite xor_list_bytes.
      - rewrite E in *. rewrite Eu, E2, pad_whole by exact L. split; [|unfold T; now apply last_whole].
        apply blk_xor; [|exact B2]. apply blk_xor; [exact Bc|]. split; [exact L|exact Bs].
      - rewrite E3, Eu. unfold xor_at. assert (Hlt : (xc_i c s < bs)%nat) by lia. assert (Lz : length (zero_pad bs (skipn (q * bs) M)) = bs) by (apply length_pad; lia).
        rewrite upd_xor by (rewrite Lz; apply Bc). rewrite <- L, pad_put by lia. split.
        + apply blk_xor; [|exact B3]. apply blk_xor; [exact Bc|]. split; [apply length_pad; rewrite app_length; cbn [length]; lia|]. apply bytes_pad, bytes_app. split; [exact Bs|now constructor].
        + unfold T. apply (last_padded bs F ltac:(lia) q (xc_i c s)); assumption. }
    destruct X as (Bu & EU). rewrite Eb. destruct (HF u Bu) as [-> BF]. cbn [bind]. eexists. split; [reflexivity|]. cbn [xc_f xc_i xc_buf]. rewrite EU. auto.
  Qed.
  Lemma xc_tags_done lens : forall s, xc_f c s = true -> length (xc_buf c s) = bs -> (xc_i c s + list_sum lens <= bs)%nat ->
    mtags (xcbc_desc c) s lens = Ok (slice (xc_i c s) (list_sum lens) (xc_buf c s)).
  Proof.
    induction lens as [|n lens IH]; intros s Hf Lb Hl; [reflexivity|]. cbn [list_sum fold_right] in *. fold (list_sum lens) in *.
    cbn [mtags]. unfold mac_tag. cbn [mc_tag xcbc_desc]. unfold xcbc_tag. rewrite Hf. cbn [bind]. fold bs.
    rewrite room_ok by lia. cbn [assert_]. rewrite reads_ok by lia. cbn [bind fst snd]. rewrite IH; cbn [xc_f xc_buf xc_i]; try assumption; [|lia].
    cbn [bind]. f_equal. unfold slice. rewrite firstn_plus. f_equal. rewrite skipn_skipn. f_equal. f_equal. lia.
  Qed.
  Lemma xc_tags M s lens : xc_rep M s -> (list_sum lens <= bs)%nat -> mtags (xcbc_desc c) s lens = Ok (firstn (list_sum lens) (T M)) /\ blk bs (T M).
  Proof.
    intros H Hl. destruct (xc_finish M s H) as (s1 & E1 & F1 & I1 & B1 & BT). split; [|exact BT].
    destruct lens as [|n lens]; [reflexivity|]. transitivity (mtags (xcbc_desc c) s1 (n :: lens)).
    - cbn [mtags]. unfold mac_tag. cbn [mc_tag xcbc_desc]. unfold xcbc_tag. destruct H as (_ & _ & _ & -> & _). rewrite E1, F1. reflexivity.
    - rewrite xc_tags_done; [|exact F1|rewrite B1; apply BT|rewrite I1; exact Hl]. now rewrite I1, B1.
  Qed.
  Lemma xc_gives s : xc_rep [] s -> mac_gives (xcbc_desc c) (Ok s) (at_most bs) (fun _ => True) T.
  Proof.
    intros Rs. apply gives_intro. intros parts Hb _. destruct (xc_feed parts [] s Rs Hb) as (s1 & E1 & R1). cbn [app] in R1.
    destruct (xc_tags _ s1 [] R1 ltac:(cbn; lia)) as [_ BT]. split; [apply BT|].
    split; [intros n Hn; unfold at_most in Hn; cbn in Hn; rewrite (proj1 BT); lia|]. intros lens Hl. unfold tag_of. cbn [bind]. rewrite E1. cbn [bind]. now apply xc_tags.
  Qed.
End Xcbc.
Lemma blk_fill n v : v < 256 -> blk n (repeat v n).
Proof. intros H. split; [apply repeat_length|]. induction n; constructor; assumption. Qed.
Theorem xcbc_init_gives c b b1 F F1 r : (0 < bc_bs c < 256)%nat -> enc_fn c b F -> bc_recreate c b r (F (repeat 1 (bc_bs c))) = Ok b1 -> enc_fn c b1 F1 ->
  mac_gives (xcbc_desc c) (xcbc_init c b r) (at_most (bc_bs c)) (fun _ => True) (cbc_mac (bc_bs c) F1 (F (repeat 2 (bc_bs c))) (F (repeat 3 (bc_bs c)))).
Proof.
  intros Hbs HF Er HF1. unfold xcbc_init.
  destruct (HF _ (blk_fill (bc_bs c) 1 ltac:(reflexivity))) as [-> _]. destruct (HF _ (blk_fill (bc_bs c) 2 ltac:(reflexivity))) as [-> B2]. destruct (HF _ (blk_fill (bc_bs c) 3 ltac:(reflexivity))) as [-> B3].
  cbn [bind]. rewrite Er. cbn [bind]. apply (xc_gives c b1 F1); try assumption.
  unfold xc_rep. cbn [xc_block xc_k2 xc_k3 xc_f xc_i xc_buf length]. repeat (split; [reflexivity|]). split; [constructor|]. exists 0%nat. cbn [Nat.mul Nat.add skipn].
  split; [reflexivity|]. split; [lia|]. split; [reflexivity|]. unfold zero_pad. cbn [length app]. rewrite Nat.sub_0_r. change (cbc_value (bc_bs c) F1 0 []) with (repeat 0 (bc_bs c)).
  rewrite xor_same, repeat_length. reflexivity.
Qed.
