(** ECB, CBC and CFB. *)
From Coq Require Import NArith Arith List Bool Lia.
From Verif Require Import Lib.Word Lib.Res Lib.Bytes Lib.MemLemmas Lib.BlockLoop Spec.Block Spec.Modes Spec.Cipher
  Model.BlockApi Model.Mem Model.Modes Proof.ModesP.
Import ListNotations.
Local Open Scope nat_scope.

Lemma length_xor_bytes a b : length b = length a -> length (xor_bytes a b) = length a.
Proof. revert b; induction a; intros [|y b] H; cbn in *; try lia. f_equal. apply IHa. lia. Qed.
Lemma nth_xor_bytes a b i : i < length a -> length b = length a ->
  nth i (xor_bytes a b) 0%N = N.lxor (nth i a 0%N) (nth i b 0%N).
Proof.
  revert b i; induction a as [|x a IH]; intros [|y b] i Hi H; cbn [length] in *; try lia.
  cbn [xor_bytes]. destruct i; [reflexivity|]. cbn [nth]. apply IH; lia.
Qed.
Lemma blk_xor n a b : blk n a -> blk n b -> blk n (xor_bytes a b).
Proof.
  intros [La Ba] [Lb Bb]. split; [rewrite length_xor_bytes; lia|].
  clear La Lb. revert b Bb. induction Ba as [|x a Hx Ba IH]; intros b Bb; destruct b as [|y b]; cbn [xor_bytes]; try constructor.
  - inversion Bb; subst. change 256%N with (2 ^ 8)%N in *. now apply inw_lxor.
  - inversion Bb; subst. now apply IH.
Qed.
Lemma xor_bytes_cancel a b : length b = length a -> xor_bytes (xor_bytes a b) b = a.
Proof. revert b; induction a; intros [|y b] H; cbn in *; try lia; auto. rewrite lxor_cancel, IHa by lia. reflexivity. Qed.

Lemma firstn_here {A} n (y o : list A) : length y = n -> firstn n (y ++ o) = y.
Proof. intros <-. now rewrite firstn_app, Nat.sub_diag, firstn_all, app_nil_r. Qed.
Lemma skipn_here {A} n (y o : list A) : length y = n -> skipn n (y ++ o) = o.
Proof. intros <-. now rewrite skipn_app, Nat.sub_diag, skipn_all. Qed.

Lemma block_0 bs l : block bs 0 l = firstn bs l.
Proof. reflexivity. Qed.
Lemma block_S bs i l : block bs (S i) l = block bs i (skipn bs l).
Proof.
  unfold block, slice. f_equal. cbn [Nat.mul]. generalize (i * bs) as k. intros k. revert l.
  induction bs as [|b IH]; intros l; [reflexivity|].
  destruct l; cbn [Nat.add skipn]; [now rewrite skipn_nil|]. apply IH.
Qed.
Lemma block_app_0 bs y o : length y = bs -> block bs 0 (y ++ o) = y.
Proof. intros <-. unfold block, slice. cbn [Nat.mul skipn]. now rewrite firstn_app, Nat.sub_diag, firstn_all, app_nil_r. Qed.
Lemma block_app_S bs i y o : length y = bs -> block bs (S i) (y ++ o) = block bs i o.
Proof.
  intros <-. rewrite block_S. f_equal. now rewrite skipn_app, Nat.sub_diag, skipn_all.
Qed.
Lemma block_pre bs i a b : (i + 1) * bs <= length a -> block bs i (a ++ b) = block bs i a.
Proof.
  intros H. unfold block, slice. rewrite skipn_app. replace (i * bs - length a) with 0 by lia. cbn [skipn].
  rewrite firstn_app, skipn_length. replace (bs - (length a - i * bs)) with 0 by lia. now rewrite app_nil_r.
Qed.

(** xor of two regions byte by byte *)
Lemma xor_region m src dst n iv : dst <= src \/ src + n <= dst -> length iv = n ->
  let m' := pfor n 0 (fun i m => wr1 m (dst + i) (N.lxor (m (src + i)) (nth i iv 0%N))) m in
  rd m' dst n = xor_bytes (rd m src n) iv /\ frame m m' dst n.
Proof.
  intros Hb Hl.
  assert (G : forall k, k <= n -> let m' := pfor k 0 (fun i m => wr1 m (dst + i) (N.lxor (m (src + i)) (nth i iv 0%N))) m in
    (forall i, i < k -> m' (dst + i) = N.lxor (m (src + i)) (nth i iv 0%N)) /\ frame m m' dst k).
  { induction k as [|k IH]; intros Hk m'; [split; [lia|apply frame_refl]|].
    destruct (IH ltac:(lia)) as [H1 H2]. subst m'. rewrite <- Nat.add_1_r, pfor_app. cbn [pfor Nat.add].
    set (m1 := pfor k 0 _ m) in *. split.
    - intros i Hi. destruct (Nat.eq_dec i k) as [->|Hne].
      + rewrite wr1_eq. f_equal. apply H2. destruct Hb; lia.
      + rewrite wr1_neq by lia. apply H1. lia.
    - intros x Hx. rewrite wr1_neq by lia. apply H2. lia. }
  destruct (G n (Nat.le_refl n)) as [H1 H2]. split; [|exact H2].
  apply rd_list; [now rewrite length_xor_bytes; rewrite length_rd|]. intros i Hi. rewrite H1 by exact Hi.
  rewrite nth_xor_bytes, nth_rd; [reflexivity|exact Hi|now rewrite length_rd|now rewrite length_rd].
Qed.

Section Cipher.
  Variable c : bcipher.
  Variable st : bc_st c.
  Notation bs := (bc_bs c).
  Let f := fn (bc_enc c st).
  Let g := fn (bc_dec c st).
  Hypothesis Hbs : 0 < bs.
  Hypothesis Hp : permutation bs (bc_enc c st) (bc_dec c st).
  Let Eok := enc_ok c st Hp.
  Let Dok := dec_ok c st Hp.

  Lemma whole_ok n {A} (k : res A) : whole_blocks c (n * bs) k = k.
  Proof. unfold whole_blocks. rewrite Nat.mod_mul by lia. reflexivity. Qed.
  Lemma whole_inv len {A} (k : res A) x : whole_blocks c len k = Ok x -> len mod bs = 0.
  Proof. unfold whole_blocks, assert_. destruct (Nat.eqb_spec (len mod bs) 0); [auto|discriminate]. Qed.

  (** *** ECB *)
  Definition ecb_enc_op (s : ecb c) m src dst len := let* m' := ecb_encrypt c s m src dst len in Ok (s, m').
  Definition ecb_dec_op (s : ecb c) m src dst len := let* m' := ecb_decrypt c s m src dst len in Ok (s, m').
  Definition ecb_inv (s : ecb c) : Prop := ecb_blk c s = st.
  Definition pstep (h : list N -> list N) (s : ecb c) (x : list N) := (s, h x).

  Lemma mfor_pair {A B} (s : A) n i (F : nat -> B -> res B) (m : B) :
    (let* m' := mfor n i F m in Ok (s, m')) =
    mfor n i (fun i (p : A * B) => let* m' := F i (snd p) in Ok (fst p, m')) (s, m).
  Proof.
    revert i m. induction n as [|n IH]; intros i m; cbn [mfor]; [reflexivity|].
    cbn [fst snd]. destruct (F i m); cbn [bind]; [apply IH|reflexivity].
  Qed.

  Lemma ecb_loop E h : (forall x, blk bs x -> E x = Ok (h x) /\ blk bs (h x)) ->
    forall (s : ecb c) m src dst n, buffers_ok src dst (n * bs) -> bytes_ok (rd m src (n * bs)) ->
    let R := crun bs (pstep h) n s (rd m src (n * bs)) in
    exists m', (let* m' := whole_blocks c (n * bs) (mfor (n * bs / bs) 0 (fun i m =>
        blk_op c E m (src + i * bs) (dst + i * bs)) m) in Ok (s, m')) = Ok (fst R, m') /\
      rd m' dst (n * bs) = snd R /\ frame m m' dst (n * bs).
  Proof.
    intros HE s m src dst n Hb Hm. rewrite whole_ok, Nat.div_mul by lia. rewrite mfor_pair.
    apply (block_loop bs (pstep h) (fun _ => True)) with
      (turn := fun o p => let* m' := blk_op c E (snd p) (src + o) (dst + o) in Ok (fst p, m')); try assumption; [| |exact I].
    - intros s' x _ Hx. split; [exact I|]. now apply HE.
    - intros o s' m' _ _ Hx. cbn [fst snd]. unfold blk_op. destruct (HE _ Hx) as [-> [Hl _]]. cbn [bind pstep fst snd].
      eexists. split; [reflexivity|]. split; [now apply rd_wr'|]. intros y Hy. apply wr_out. lia.
  Qed.

  Lemma ecb_enc_loop s m src dst n : buffers_ok src dst (n * bs) -> bytes_ok (rd m src (n * bs)) -> ecb_inv s ->
    let R := crun bs (pstep f) n s (rd m src (n * bs)) in
    exists m', ecb_enc_op s m src dst (n * bs) = Ok (fst R, m') /\ rd m' dst (n * bs) = snd R /\ frame m m' dst (n * bs).
  Proof.
    intros Hb Hm Hs. unfold ecb_enc_op, ecb_encrypt. rewrite Hs. apply ecb_loop; try assumption.
    intros x Hx. destruct (Eok x Hx) as (? & ? & _). now split.
  Qed.
  Lemma ecb_dec_loop s m src dst n : buffers_ok src dst (n * bs) -> bytes_ok (rd m src (n * bs)) -> ecb_inv s ->
    let R := crun bs (pstep g) n s (rd m src (n * bs)) in
    exists m', ecb_dec_op s m src dst (n * bs) = Ok (fst R, m') /\ rd m' dst (n * bs) = snd R /\ frame m m' dst (n * bs).
  Proof.
    intros Hb Hm Hs. unfold ecb_dec_op, ecb_decrypt. rewrite Hs. apply ecb_loop; try assumption.
    intros x Hx. destruct (Dok x Hx) as (? & ? & _). now split.
  Qed.
  Lemma ecb_enc_mod s m src dst len p : ecb_enc_op s m src dst len = Ok p -> len mod bs = 0.
  Proof. intros H. apply bind_ok in H. destruct H as (m' & H & _). now apply whole_inv in H. Qed.
  Lemma ecb_dec_mod s m src dst len p : ecb_dec_op s m src dst len = Ok p -> len mod bs = 0.
  Proof. intros H. apply bind_ok in H. destruct H as (m' & H & _). now apply whole_inv in H. Qed.
  Lemma ecb_step_e s x : ecb_inv s -> blk bs x -> ecb_inv (fst (pstep f s x)) /\ blk bs (snd (pstep f s x)).
  Proof. intros Hs Hx. split; [exact Hs|]. now apply Eok. Qed.
  Lemma ecb_step_d s x : ecb_inv s -> blk bs x -> ecb_inv (fst (pstep g s x)) /\ blk bs (snd (pstep g s x)).
  Proof. intros Hs Hx. split; [exact Hs|]. now apply Dok. Qed.

  Lemma ecb_crun_spec h n s l : (forall x, blk bs x -> blk bs (h x)) -> bytes_ok l -> length l = n * bs ->
    ecb_spec bs h l (snd (crun bs (pstep h) n s l)).
  Proof.
    intros Hh. revert s l. induction n as [|n IH]; intros s l Hb Hl.
    - split; [now rewrite Hl|]. rewrite Hl. cbn [Nat.mul]. rewrite Nat.div_0_l by lia. lia.
    - cbn [crun pstep fst snd]. destruct (bytes_split bs (n * bs) l Hb Hl) as (H1 & H2 & H3).
      destruct (IH s _ H2 H3) as [L G]. destruct (Hh _ H1) as [L1 _]. split.
      + rewrite app_length, L, L1, H3, Hl. cbn [Nat.mul]. lia.
      + intros i Hi. rewrite Hl, Nat.div_mul in Hi by lia. destruct i.
        * now rewrite block_app_0, block_0.
        * rewrite block_app_S, block_S by exact L1. apply G. rewrite H3, Nat.div_mul by lia. lia.
  Qed.
  Lemma ecb_crun_rt n s s' l : bytes_ok l -> length l = n * bs ->
    snd (crun bs (pstep g) n s' (snd (crun bs (pstep f) n s l))) = l.
  Proof.
    revert s s' l. induction n as [|n IH]; intros s s' l Hb Hl; cbn [crun pstep fst snd].
    - now destruct l.
    - destruct (bytes_split bs (n * bs) l Hb Hl) as (H1 & H2 & H3).
      destruct (Eok _ H1) as (_ & [L1 _] & E1). fold f g in L1, E1.
      rewrite firstn_here, skipn_here by exact L1.
      rewrite E1, IH by assumption. apply firstn_skipn.
  Qed.

  (** *** CBC *)
  Definition cbc_inv (s : cbc c) : Prop := cbc_blk c s = st /\ blk bs (cbc_iv c s).
  Definition cbc_estep (s : cbc c) (x : list N) :=
    let y := f (xor_bytes x (cbc_iv c s)) in ({| cbc_blk := cbc_blk c s; cbc_iv := y |}, y).
  Definition cbc_dstep (s : cbc c) (x : list N) :=
    ({| cbc_blk := cbc_blk c s; cbc_iv := x |}, xor_bytes (g x) (cbc_iv c s)).
  Lemma cbc_estep_ok s x : cbc_inv s -> blk bs x -> cbc_inv (fst (cbc_estep s x)) /\ blk bs (snd (cbc_estep s x)).
  Proof.
    intros [H1 H2] Hx. destruct (Eok _ (blk_xor _ _ _ Hx H2)) as (_ & B & _). split; [split; [exact H1|exact B]|exact B].
  Qed.
  Lemma cbc_dstep_ok s x : cbc_inv s -> blk bs x -> cbc_inv (fst (cbc_dstep s x)) /\ blk bs (snd (cbc_dstep s x)).
  Proof.
    intros [H1 H2] Hx. destruct (Dok x Hx) as (_ & B & _).
    split; [now split|]. cbn [cbc_dstep snd]. now apply blk_xor.
  Qed.

  Lemma buffers_at src dst o : buffers_ok src dst (o + bs) -> dst + o <= src + o \/ src + o + bs <= dst + o.
  Proof. unfold buffers_ok. lia. Qed.

  Lemma cbc_enc_turn_ok src dst o s m : buffers_ok src dst (o + bs) -> cbc_inv s -> blk bs (rd m (src + o) bs) ->
    exists m', cbc_enc_turn c src dst o (s, m) = Ok (fst (cbc_estep s (rd m (src + o) bs)), m') /\
      rd m' (dst + o) bs = snd (cbc_estep s (rd m (src + o) bs)) /\ frame m m' (dst + o) bs.
  Proof.
    intros Hb [H1 H2] Hx. unfold cbc_enc_turn. cbn beta iota zeta.
    destruct (xor_region m (src + o) (dst + o) bs (cbc_iv c s) (buffers_at _ _ _ Hb) (proj1 H2)) as [R F].
    set (m1 := pfor bs 0 _ m) in *. unfold blk_op. rewrite R, H1.
    destruct (Eok _ (blk_xor _ _ _ Hx H2)) as (Ee & [L B] & _). fold f in Ee, L, B. rewrite Ee. cbn [bind].
    eexists. split; [|split].
    - cbn [cbc_estep fst]. rewrite rd_wr' by exact L. now rewrite H1.
    - now apply rd_wr'.
    - intros y Hy. rewrite wr_out by lia. now apply F.
  Qed.
  Lemma cbc_dec_turn_ok src dst o s m : buffers_ok src dst (o + bs) -> cbc_inv s -> blk bs (rd m (src + o) bs) ->
    exists m', cbc_dec_turn c src dst o (s, m) = Ok (fst (cbc_dstep s (rd m (src + o) bs)), m') /\
      rd m' (dst + o) bs = snd (cbc_dstep s (rd m (src + o) bs)) /\ frame m m' (dst + o) bs.
  Proof.
    intros Hb [H1 H2] Hx. unfold cbc_dec_turn, blk_op. cbn beta iota zeta. rewrite H1.
    destruct (Dok _ Hx) as (Ee & [L B] & _). fold g in Ee, L, B. rewrite Ee. cbn [bind].
    set (m1 := wr m (dst + o) _).
    destruct (xor_region m1 (dst + o) (dst + o) bs (cbc_iv c s) (or_introl (Nat.le_refl _)) (proj1 H2)) as [R F].
    eexists. split; [cbn [cbc_dstep fst]; rewrite H1; reflexivity|]. split.
    - rewrite R. cbn [cbc_dstep snd]. f_equal. now apply rd_wr'.
    - intros y Hy. rewrite F by exact Hy. apply wr_out. lia.
  Qed.

  Lemma cbc_enc_loop s m src dst n : buffers_ok src dst (n * bs) -> bytes_ok (rd m src (n * bs)) -> cbc_inv s ->
    let R := crun bs cbc_estep n s (rd m src (n * bs)) in
    exists m', cbc_encrypt c s m src dst (n * bs) = Ok (fst R, m') /\ rd m' dst (n * bs) = snd R /\ frame m m' dst (n * bs).
  Proof.
    intros Hb Hm Hs. unfold cbc_encrypt. rewrite whole_ok, Nat.div_mul by lia.
    apply (block_loop bs cbc_estep cbc_inv cbc_estep_ok src dst (cbc_enc_turn c src dst)); try assumption.
    apply cbc_enc_turn_ok.
  Qed.
  Lemma cbc_dec_loop s m src dst n : buffers_ok src dst (n * bs) -> bytes_ok (rd m src (n * bs)) -> cbc_inv s ->
    let R := crun bs cbc_dstep n s (rd m src (n * bs)) in
    exists m', cbc_decrypt c s m src dst (n * bs) = Ok (fst R, m') /\ rd m' dst (n * bs) = snd R /\ frame m m' dst (n * bs).
  Proof.
    intros Hb Hm Hs. unfold cbc_decrypt. rewrite whole_ok, Nat.div_mul by lia.
    apply (block_loop bs cbc_dstep cbc_inv cbc_dstep_ok src dst (cbc_dec_turn c src dst)); try assumption.
    apply cbc_dec_turn_ok.
  Qed.
  Lemma cbc_enc_mod s m src dst len p : cbc_encrypt c s m src dst len = Ok p -> len mod bs = 0.
  Proof. apply whole_inv. Qed.
  Lemma cbc_dec_mod s m src dst len p : cbc_decrypt c s m src dst len = Ok p -> len mod bs = 0.
  Proof. apply whole_inv. Qed.

  Lemma cbc_crun_spec n s l : cbc_inv s -> bytes_ok l -> length l = n * bs ->
    cbc_spec bs f (cbc_iv c s) l (snd (crun bs cbc_estep n s l)).
  Proof.
    revert s l. induction n as [|n IH]; intros s l Hs Hb Hl.
    - split; [now rewrite Hl|]. rewrite Hl. cbn [Nat.mul]. rewrite Nat.div_0_l by lia. lia.
    - cbn [crun]. destruct (bytes_split bs (n * bs) l Hb Hl) as (H1 & H2 & H3).
      destruct (cbc_estep_ok s _ Hs H1) as [I1 [L1 B1]].
      destruct (IH _ _ I1 H2 H3) as [L G]. cbn [fst snd]. split.
      + rewrite app_length, L, L1, H3, Hl. cbn [Nat.mul]. lia.
      + intros i Hi. rewrite Hl, Nat.div_mul in Hi by lia. destruct i.
        * rewrite block_app_0, block_0 by exact L1. reflexivity.
        * rewrite (block_app_S _ i), block_S by exact L1.
          rewrite G by (rewrite H3, Nat.div_mul by lia; lia). f_equal. f_equal. destruct i.
          -- now rewrite block_app_0.
          -- now rewrite block_app_S.
  Qed.
  Lemma cbc_crun_rt n s l : cbc_inv s -> bytes_ok l -> length l = n * bs ->
    snd (crun bs cbc_dstep n s (snd (crun bs cbc_estep n s l))) = l.
  Proof.
    revert s l. induction n as [|n IH]; intros s l Hs Hb Hl; cbn [crun].
    - now destruct l.
    - destruct (bytes_split bs (n * bs) l Hb Hl) as (H1 & H2 & H3).
      destruct (cbc_estep_ok s _ Hs H1) as [I1 [L1 B1]]. cbn [fst snd].
      rewrite firstn_here, skipn_here by exact L1.
      replace (fst (cbc_dstep s (snd (cbc_estep s (firstn bs l))))) with (fst (cbc_estep s (firstn bs l))) by reflexivity.
      rewrite IH by assumption. cbn [cbc_dstep cbc_estep fst snd].
      destruct (Eok _ (blk_xor _ _ _ H1 (proj2 Hs))) as (_ & _ & E1). fold f g in E1. rewrite E1.
      rewrite xor_bytes_cancel by (rewrite (proj1 H1); apply Hs). apply firstn_skipn.
  Qed.

  (** *** CFB encryption *)
  Section Cfb.
    Variable iv : list N.
    Hypothesis Hiv : blk bs iv.

    Definition cfb_before (q : nat) (out : list N) : list N := match q with O => iv | S j => block bs j out end.
    Definition cfb_inv (out : list N) (s : fb c) : Prop :=
      fb_blk c s = st /\ bytes_ok out /\
      ((out = [] /\ fb_prev c s = iv /\ fb_used c s = bs) \/
       exists q u, length out = q * bs + u /\ 0 < u <= bs /\ fb_used c s = u /\ length (fb_prev c s) = bs /\
         forall j, j < bs -> nth j (fb_prev c s) 0%N =
           if j <? u then nth (q * bs + j) out 0%N else nth j (f (cfb_before q out)) 0%N).

    Lemma before_blk q out : bytes_ok out -> q * bs <= length out -> blk bs (cfb_before q out).
    Proof.
      intros Hb Hq. destruct q; [exact Hiv|]. cbn [cfb_before]. unfold block. split.
      - apply length_slice. lia.
      - now apply bytes_slice.
    Qed.
    Lemma before_snoc q out v : q * bs <= length out -> cfb_before q (out ++ v) = cfb_before q out.
    Proof. intros H. destruct q; [reflexivity|]. cbn [cfb_before]. apply block_pre. lia. Qed.

    Lemma cfb_refill_ok out s : cfb_inv out s -> exists s', fb_refill c s = Ok s' /\ fb_blk c s' = st /\
      exists q u, length out = q * bs + u /\ u < bs /\ fb_used c s' = u /\ length (fb_prev c s') = bs /\
         forall j, j < bs -> nth j (fb_prev c s') 0%N =
           if j <? u then nth (q * bs + j) out 0%N else nth j (f (cfb_before q out)) 0%N.
    Proof.
      intros (Hb & Ho & H). unfold fb_refill.
      destruct H as [(H1 & H2 & H3)|(q & u & Hl & Hu & Hus & Hpl & Hpn)].
      - rewrite H3, Nat.eqb_refl, Hb, H2. destruct (Eok iv Hiv) as (Ee & [L _] & _). fold f in Ee, L. rewrite Ee. cbn [bind].
        eexists. split; [reflexivity|]. split; [reflexivity|]. exists 0, 0. subst out.
        repeat split; try (cbn; lia).
      - destruct (Nat.eqb_spec (fb_used c s) bs) as [Eu|Nu].
        + rewrite Hb. assert (E1 : fb_prev c s = cfb_before (S q) out).
          { rewrite Eu in Hus. subst u. cbn [cfb_before].
            apply nth_ext with (d := 0%N) (d' := 0%N); [unfold block; rewrite length_slice; lia|].
            intros j Hj. rewrite Hpl in Hj. rewrite Hpn by exact Hj.
            rewrite (proj2 (Nat.ltb_lt j bs)) by exact Hj. unfold block. now rewrite nth_slice. }
          rewrite E1. destruct (Eok _ (before_blk (S q) out Ho ltac:(cbn [Nat.mul]; lia))) as (Ee & [L _] & _).
          fold f in Ee, L. rewrite Ee. cbn [bind].
          eexists. split; [reflexivity|]. split; [reflexivity|]. exists (S q), 0.
          repeat split; try (cbn [Nat.mul]; lia). exact L.
        + exists s. split; [reflexivity|]. split; [exact Hb|]. exists q, u. repeat split; try assumption; lia.
    Qed.

    Lemma cfb_step_ok l out s b : cfb_inv out s -> cfb_spec bs f iv l out -> (b < 256)%N ->
      exists s' v, cfb_enc_step c s b = Ok (s', v) /\ cfb_inv (out ++ [v]) s' /\ cfb_spec bs f iv (l ++ [b]) (out ++ [v]).
    Proof.
      intros HI [SL SP] Hb. pose proof HI as (Hblk & Ho & _).
      destruct (cfb_refill_ok out s HI) as (s1 & E1 & Hb1 & q & u & Hl & Hu & Hus & Hpl & Hpn).
      unfold cfb_enc_step. rewrite E1. cbn [bind]. rewrite Hus.
      rewrite (get_ok _ _ 0%N) by lia. cbn [bind]. rewrite Hpn by exact Hu.
      rewrite Nat.ltb_irrefl. set (v := N.lxor _ b).
      assert (Bq : blk bs (cfb_before q out)) by (apply before_blk; [exact Ho|lia]).
      assert (Hv : (v < 256)%N).
      { subst v. change 256%N with (2 ^ 8)%N in *. apply inw_lxor; [|exact Hb].
        change (2 ^ 8)%N with 256%N. apply bytes_nth. now apply Eok. }
      eexists _, v. split; [reflexivity|]. split.
      - split; [exact Hb1|]. split; [apply bytes_app; split; [exact Ho|now repeat constructor]|].
        right. exists q, (S u). cbn [fb_used fb_prev]. rewrite app_length. cbn [length].
        repeat split; try lia; [now rewrite length_upd|].
        intros j Hj. rewrite nth_upd by lia. rewrite before_snoc by lia.
        destruct (Nat.eqb_spec j u) as [->|Hne].
        + rewrite (proj2 (Nat.ltb_lt u (S u))) by lia. rewrite app_nth2 by lia.
          rewrite (proj2 (Nat.ltb_lt u (length (fb_prev c s1)))) by lia.
          now replace (q * bs + u - length out) with 0 by lia.
        + cbn [andb]. rewrite Hpn by exact Hj. destruct (Nat.ltb_spec j u), (Nat.ltb_spec j (S u)); try lia; try reflexivity.
          rewrite app_nth1 by lia. reflexivity.
      - split; [rewrite !app_length; cbn; lia|]. intros n Hn. rewrite app_length in Hn. cbn [length] in Hn.
        destruct (Nat.eq_dec n (length l)) as [->|Hne].
        + rewrite (app_nth2 out), (app_nth2 l) by lia. rewrite SL, !Nat.sub_diag. cbn [nth].
          rewrite <- SL, Hl. destruct (divmod c Hbs q u Hu) as [-> ->].
          fold (cfb_before q (out ++ [v])). rewrite before_snoc by lia. apply N.lxor_comm.
        + rewrite (app_nth1 out), (app_nth1 l) by lia. rewrite SP by lia. f_equal. f_equal. f_equal.
          symmetry. apply (before_snoc (n / bs)). pose proof (Nat.mul_div_le n bs). lia.
    Qed.

    Lemma cfb_brun l s : bytes_ok l -> cfb_inv [] s ->
      exists s' out, brun (cfb_enc_step c) s l = Ok (s', out) /\ cfb_inv out s' /\ cfb_spec bs f iv l out.
    Proof.
      intros Hl Hs. induction l as [|b l IH] using rev_ind.
      - exists s, []. split; [reflexivity|]. split; [exact Hs|]. split; [reflexivity|]. cbn. lia.
      - apply bytes_app in Hl. destruct Hl as [Hl Hb]. inversion Hb; subst.
        destruct (IH Hl) as (s1 & o1 & E1 & I1 & S1).
        destruct (cfb_step_ok l o1 s1 b I1 S1) as (s2 & v & E2 & I2 & S2); [assumption|].
        rewrite brun_app, E1. cbn [bind fst snd brun]. rewrite E2. cbn [bind fst snd].
        exists s2, (o1 ++ [v]). repeat split; try assumption; apply S2 || apply I2.
    Qed.

    Lemma cfb_brun_from out0 l0 l s : bytes_ok l -> cfb_inv out0 s -> cfb_spec bs f iv l0 out0 ->
      exists s' out, brun (cfb_enc_step c) s l = Ok (s', out) /\ cfb_inv (out0 ++ out) s' /\ cfb_spec bs f iv (l0 ++ l) (out0 ++ out).
    Proof.
      intros Hl Hs H0. induction l as [|b l IH] using rev_ind.
      - exists s, []. rewrite !app_nil_r. repeat split; try apply Hs; apply H0.
      - apply bytes_app in Hl. destruct Hl as [Hl Hb]. inversion Hb; subst.
        destruct (IH Hl) as (s1 & o1 & E1 & I1 & S1).
        destruct (cfb_step_ok (l0 ++ l) (out0 ++ o1) s1 b I1 S1) as (s2 & v & E2 & I2 & S2); [assumption|].
        rewrite brun_app, E1. cbn [bind fst snd brun]. rewrite E2. cbn [bind fst snd].
        exists s2, (o1 ++ [v]). rewrite !app_assoc. repeat split; try assumption; apply S2 || apply I2.
    Qed.

    Lemma cfb_call out0 l0 s m src dst len : cfb_inv out0 s -> cfb_spec bs f iv l0 out0 ->
      buffers_ok src dst len -> bytes_ok (rd m src len) ->
      exists s' m', cfb_encrypt c s m src dst len = Ok (s', m') /\ cfb_inv (out0 ++ rd m' dst len) s' /\
        cfb_spec bs f iv (l0 ++ rd m src len) (out0 ++ rd m' dst len) /\ frame m m' dst len.
    Proof.
      intros Hs H0 Hb Hm. destruct (cfb_brun_from out0 l0 _ s Hm Hs H0) as (s' & out & E & I' & S').
      destruct (bloop_run _ _ _ _ _ _ _ _ Hb E) as (m' & E' & R & F).
      exists s', m'. rewrite R. repeat split; try assumption; apply I' || apply S'.
    Qed.

    Lemma cfb_session s inp s' out : session (cfb_encrypt c) s inp s' out ->
      forall out0 l0, cfb_inv out0 s -> cfb_spec bs f iv l0 out0 ->
      cfb_inv (out0 ++ out) s' /\ cfb_spec bs f iv (l0 ++ inp) (out0 ++ out).
    Proof.
      induction 1 as [s|s m src dst len s1 m1 inp s2 out Hb Hi E H IH]; intros out0 l0 Hs H0.
      - rewrite !app_nil_r. now split.
      - destruct (cfb_call out0 l0 s m src dst len Hs H0 Hb Hi) as (s1' & m1' & E' & I' & S' & _).
        rewrite E in E'. apply Ok_inj in E'. injection E' as <- <-.
        rewrite !app_assoc. now apply IH.
    Qed.

    (** decryption: correct for one call of at most one block with separate buffers, the output
        buffer having room for a whole block *)
    Lemma cfb_dec_first s m src dst len : fb_blk c s = st -> fb_prev c s = iv -> fb_used c s = bs ->
      0 < len <= bs -> src + len <= dst \/ dst + bs <= src ->
      exists s' m', cfb_decrypt c s m src dst len = Ok (s', m') /\
        rd m' dst len = xor_bytes (rd m src len) (firstn len (f iv)) /\ frame m m' dst bs /\
        (len = bs -> s' = {| fb_blk := st; fb_prev := rd m src bs; fb_used := bs |}).
    Proof.
      intros H1 H2 H3 Hl Hb. destruct (Eok iv Hiv) as (Ee & [L _] & _). fold f in Ee, L.
      assert (G : forall k, 0 < k <= len -> exists p m', mfor k 0 (cfb_dec_turn c src dst) (s, m) =
          Ok ({| fb_blk := st; fb_prev := p; fb_used := k |}, m') /\ (length p = bs /\ forall i, i < k -> nth i p 0%N = m (src + i)) /\
        (forall i, i < k -> m' (dst + i) = N.lxor (m (src + i)) (nth i (f iv) 0%N)) /\
        (forall i, k <= i < bs -> m' (dst + i) = nth i (f iv) 0%N) /\ frame m m' dst bs).
      { induction k as [|k IH]; intros Hk; [lia|]. destruct k as [|k].
        - exists (upd iv 0 (m src)). eexists. split; [|split; [|split; [|split]]].
          + cbn [mfor]. unfold cfb_dec_turn. rewrite H3, Nat.eqb_refl, H1, H2, Ee. cbn [bind fb_used fb_prev fb_blk].
            assert (X : wr1 (wr m dst (f iv)) (dst + 0) (N.lxor (wr m dst (f iv) (dst + 0)) (wr m dst (f iv) (src + 0))) (src + 0) = m src).
            { rewrite wr1_neq by lia. rewrite wr_out by lia. f_equal. lia. }
            rewrite X. unfold put. rewrite (proj2 (Nat.ltb_lt 0 (length iv))) by (rewrite (proj1 Hiv); lia). reflexivity.
          + rewrite length_upd. split; [apply Hiv|]. intros i Hi. assert (i = 0) by lia. subst i.
            rewrite nth_upd, Nat.eqb_refl, (proj2 (Nat.ltb_lt 0 (length iv))) by (rewrite (proj1 Hiv); lia). cbn [andb]. f_equal. lia.
          + intros i Hi. assert (i = 0) by lia. subst i. rewrite wr1_eq, wr_in, wr_out by lia.
            replace (dst + 0 - dst) with 0 by lia. apply N.lxor_comm.
          + intros i Hi. rewrite wr1_neq, wr_in by lia. f_equal. lia.
          + intros x Hx. rewrite wr1_neq by lia. apply wr_out. lia.
        - destruct (IH ltac:(lia)) as (p & m' & E1 & (Lp & Np) & G1 & G2 & F).
          replace (S (S k)) with (S k + 1) by lia. exists (upd p (S k) (m (src + S k))). eexists.
          split; [|split; [|split; [|split]]].
          + rewrite mfor_app, E1. cbn [bind mfor Nat.add]. unfold cfb_dec_turn at 1. cbn [fb_used fb_prev fb_blk].
            destruct (Nat.eqb_spec (S k) bs) as [X|_]; [lia|]. cbn [bind].
            rewrite (wr1_neq _ (dst + S k) _ (src + S k)) by lia. rewrite (F (src + S k)) by lia.
            cbn [fb_used fb_prev fb_blk]. unfold put. rewrite (proj2 (Nat.ltb_lt (S k) (length p))) by lia.
            cbn [bind]. rewrite ?Nat.add_1_r. reflexivity.
          + rewrite length_upd. split; [exact Lp|]. intros i Hi. rewrite nth_upd.
            destruct (Nat.eqb_spec i (S k)) as [->|Hne]; cbn [andb]; [now rewrite (proj2 (Nat.ltb_lt (S k) (length p))) by lia|apply Np; lia].
          + intros i Hi. destruct (Nat.eq_dec i (S k)) as [->|Hne].
            * rewrite wr1_eq. rewrite G2, N.lxor_comm by lia. reflexivity.
            * rewrite wr1_neq by lia. apply G1. lia.
          + intros i Hi. rewrite wr1_neq by lia. apply G2. lia.
          + intros x Hx. rewrite wr1_neq by lia. now apply F. }
      destruct (G len ltac:(lia)) as (p & m' & E1 & (Lp & Np) & G1 & _ & F). eexists _, m'. split; [exact E1|]. split; [|split; [exact F|]].
      2:{ intros ->. f_equal. symmetry. apply rd_list; [exact Lp|]. intros i Hi. symmetry. now apply Np. }
      assert (Lf : length (firstn len (f iv)) = len) by (rewrite firstn_length; lia).
      apply rd_list; [rewrite length_xor_bytes, length_rd; [reflexivity|now rewrite length_rd]|].
      intros i Hi. rewrite G1 by exact Hi. rewrite nth_xor_bytes by (rewrite length_rd; lia).
      rewrite nth_rd by exact Hi. now rewrite nth_firstn.
    Qed.
  End Cfb.
End Cipher.
