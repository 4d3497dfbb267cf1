From Coq Require Import NArith Arith List Bool Lia.
From Verif Require Import Lib.Word Lib.Res Lib.Bytes Lib.MemLemmas Spec.Block Spec.Modes Spec.Cipher
  Model.BlockApi Model.Mem Model.Modes.
Import ListNotations.
Local Open Scope nat_scope.

Lemma undoes_fn n E D x : undoes n E D -> blk n x -> E x = Ok (fn E x) /\ blk n (fn E x) /\ fn D (fn E x) = x.
Proof.
  intros H [Hl Hb]. destruct (H x Hl Hb) as (y & E1 & Hl' & Hb' & E2). unfold fn. rewrite E1.
  rewrite E2. repeat split; assumption.
Qed.

Lemma blk_pad bs iv : bytes_ok iv -> length iv <= bs -> blk bs (pad_iv bs iv).
Proof.
  intros Hb Hl. unfold pad_iv. split; [rewrite app_length, repeat_length; lia|].
  apply bytes_app. split; [exact Hb|apply bytes_repeat0].
Qed.

(** ** The CTR counter *)
Lemma be_val_snoc l b : be_val (l ++ [b]) = (be_val l * 256 + b)%N.
Proof. unfold be_val. rewrite rev_app_distr. cbn [rev app le_val]. lia. Qed.
Lemma be_bytes_S n x : be_bytes (S n) x = be_bytes n (x / 256) ++ [(x mod 256)%N].
Proof. reflexivity. Qed.

Definition inc_bytes (l : list N) : list N :=
  be_bytes (length l) ((be_val l + 1) mod 256 ^ N.of_nat (length l))%N.

Lemma inc_snoc l b : bytes_ok (l ++ [b]) ->
  inc_bytes (l ++ [b]) = if (b =? 255)%N then inc_bytes l ++ [0%N] else l ++ [(b + 1)%N].
Proof.
  intros H. apply bytes_app in H. destruct H as [Hl Hb]. inversion Hb as [|? ? Hb' _]; subst.
  unfold inc_bytes. rewrite app_length. cbn [length]. rewrite Nat.add_1_r, be_bytes_S, be_val_snoc.
  rewrite Nat2N.inj_succ, N.pow_succ_r'.
  set (M := (256 ^ N.of_nat (length l))%N). assert (HM : M <> 0%N) by (apply N.pow_nonzero; lia).
  pose proof (be_val_bound l Hl) as HB. fold M in HB.
  destruct (N.eqb_spec b 255) as [->|Hne].
  - replace (be_val l * 256 + 255 + 1)%N with ((be_val l + 1) * 256)%N by lia.
    rewrite (N.mul_comm 256 M), N.mul_mod_distr_r by lia.
    rewrite N.div_mul, N.mod_mul by lia. reflexivity.
  - rewrite (N.mod_small _ (256 * M)) by nia.
    replace (be_val l * 256 + b + 1)%N with (b + 1 + be_val l * 256)%N by lia.
    rewrite N.div_add, N.mod_add by lia. rewrite N.div_small, N.mod_small, N.add_0_l by lia.
    now rewrite be_bytes_val.
Qed.

Lemma upd_app_at {A} (l : list A) x r v : upd (l ++ x :: r) (length l) v = l ++ v :: r.
Proof. induction l; cbn; [reflexivity|]. now rewrite IHl. Qed.

Lemma ctr_inc_spec a l r : bytes_ok l -> ctr_inc (length l) (a :: l ++ r) = a :: inc_bytes l ++ r.
Proof.
  revert r. induction l as [|b l IH] using rev_ind; intros r H; [reflexivity|].
  rewrite inc_snoc by exact H. apply bytes_app in H. destruct H as [Hl Hb]. inversion Hb as [|? ? Hb' _]; subst.
  rewrite app_length. cbn [length]. rewrite Nat.add_1_r. cbn [ctr_inc].
  cbn [nth upd]. rewrite <- app_assoc. cbn [app]. rewrite app_nth2, Nat.sub_diag by lia. cbn [nth].
  rewrite upd_app_at. rewrite byte_mod.
  destruct (N.eqb_spec b 255) as [->|Hne].
  - change ((255 + 1) mod 256)%N with 0%N. cbn [N.eqb]. rewrite IH by exact Hl. now rewrite <- app_assoc.
  - rewrite N.mod_small by lia. destruct (N.eqb_spec (b + 1) 0); [lia|]. now rewrite <- app_assoc.
Qed.

Lemma length_inc l : length (inc_bytes l) = length l.
Proof. apply length_be_bytes. Qed.
Lemma bytes_inc l : bytes_ok (inc_bytes l).
Proof. apply bytes_be_bytes. Qed.

(** counter block number [j] of the library: the first byte never changes *)


Lemma ctr_at_0 iv : bytes_ok iv -> ctr_at iv 0 = iv.
Proof.
  intros H. destruct iv as [|a t]; [reflexivity|]. inversion H as [|? ? Ha Ht]; subst. cbn [ctr_at]. f_equal.
  rewrite N.add_0_r, N.mod_small by now apply be_val_bound. now apply be_bytes_val.
Qed.
Lemma ctr_at_blk bs iv j : blk bs iv -> blk bs (ctr_at iv j).
Proof.
  intros [Hl Hb]. destruct iv as [|a t]; [now split|]. inversion Hb as [|? ? Ha Ht]; subst. cbn [ctr_at].
  split; [cbn [length]; now rewrite length_be_bytes|]. constructor; [exact Ha|apply bytes_be_bytes].
Qed.
Lemma ctr_inc_at bs iv j : blk bs iv -> ctr_inc (bs - 1) (ctr_at iv j) = ctr_at iv (S j).
Proof.
  intros [Hl Hb]. destruct iv as [|a t]; [cbn in Hl; subst bs; reflexivity|].
  inversion Hb as [|? ? Ha Ht]; subst. cbn [ctr_at length]. rewrite Nat.sub_succ, Nat.sub_0_r.
  set (M := (256 ^ N.of_nat (length t))%N). assert (HM : M <> 0%N) by (apply N.pow_nonzero; lia).
  set (l := be_bytes (length t) ((be_val t + N.of_nat j) mod M)).
  assert (L : length l = length t) by apply length_be_bytes.
  pose proof (ctr_inc_spec a l [] (bytes_be_bytes _ _)) as E. rewrite !app_nil_r, L in E. rewrite E. f_equal.
  unfold inc_bytes. rewrite L. f_equal. subst l. rewrite be_val_bytes. fold M.
  rewrite N.mod_mod, N.add_mod_idemp_l by exact HM. f_equal. lia.
Qed.

(** as long as the lower bytes do not overflow this is the standard counter *)
Lemma ctr_at_std bs iv j : blk bs iv -> 0 < bs ->
  (be_val (skipn 1 iv) + N.of_nat j < 256 ^ N.of_nat (bs - 1))%N -> ctr_at iv j = ctr_value bs iv j.
Proof.
  intros [Hl Hb] Hbs H. destruct iv as [|a t]; [cbn in Hl; lia|]. inversion Hb as [|? ? Ha Ht]; subst.
  cbn [skipn length] in *. rewrite Nat.sub_succ, Nat.sub_0_r in H. unfold ctr_value. cbn [ctr_at length].
  assert (E : be_val (a :: t) = (a * 256 ^ N.of_nat (length t) + be_val t)%N).
  { clear. unfold be_val. cbn [rev]. generalize (rev t) (rev_length t). intros l L. rewrite <- L. clear t L.
    induction l as [|b l IH]; cbn [app le_val length]; [change (256 ^ N.of_nat 0)%N with 1%N; lia|].
    rewrite IH, Nat2N.inj_succ, N.pow_succ_r'. lia. }
  rewrite E. set (M := (256 ^ N.of_nat (length t))%N) in *.
  rewrite (N.mod_small _ M) by exact H.
  rewrite N.mod_small.
  2: { rewrite Nat2N.inj_succ, N.pow_succ_r'. fold M. nia. }
  rewrite <- N.add_assoc. set (v := (be_val t + N.of_nat j)%N) in *.
  assert (G : forall n v, (v < 256 ^ N.of_nat n)%N -> be_bytes (S n) (a * 256 ^ N.of_nat n + v) = a :: be_bytes n v).
  { clear - Ha. intros n v Hv. unfold be_bytes.
    assert (P : forall n v, (v < 256 ^ N.of_nat n)%N -> le_bytes (S n) (a * 256 ^ N.of_nat n + v) = le_bytes n v ++ [a]).
    { clear n v Hv. induction n as [|n IH]; intros v Hv.
      - change (256 ^ N.of_nat 0)%N with 1%N in *. assert (v = 0)%N by lia. subst v. cbn [le_bytes app].
        rewrite N.mul_1_r, N.add_0_r. now rewrite N.mod_small.
      - rewrite Nat2N.inj_succ, N.pow_succ_r' in *.
        remember (S n) as n' eqn:En. cbn [le_bytes]. subst n'. cbn [le_bytes app].
        set (M := (256 ^ N.of_nat n)%N) in *.
        replace (a * (256 * M) + v)%N with (v + (a * M) * 256)%N by lia.
        rewrite N.mod_add, N.div_add by lia. f_equal.
        rewrite N.add_comm. rewrite <- IH; [reflexivity|]. apply N.div_lt_upper_bound; lia. }
    rewrite P by exact Hv. now rewrite rev_app_distr. }
  unfold M. symmetry. apply G. exact H.
Qed.

Lemma be_bytes_inj n x y : (x < 256 ^ N.of_nat n)%N -> (y < 256 ^ N.of_nat n)%N -> be_bytes n x = be_bytes n y -> x = y.
Proof.
  intros Hx Hy E. rewrite <- (N.mod_small x (256 ^ N.of_nat n)), <- (N.mod_small y (256 ^ N.of_nat n)) by assumption.
  now rewrite <- !be_val_bytes, E.
Qed.

Lemma mod_add_inj a i j M : (M <> 0 -> i < M -> j < M -> (a + i) mod M = (a + j) mod M -> i = j)%N.
Proof.
  intros HM Hi Hj E.
  pose proof (N.div_mod (a + i) M HM) as D1. pose proof (N.div_mod (a + j) M HM) as D2. rewrite E in D1.
  set (r := ((a + j) mod M)%N) in *. set (q1 := ((a + i) / M)%N) in *. set (q2 := ((a + j) / M)%N) in *.
  assert (q1 = q2 \/ q1 < q2 \/ q2 < q1)%N as [Q|[Q|Q]] by lia; nia.
Qed.

Lemma ctr_at_inj bs iv i j : blk bs iv -> 0 < bs ->
  (N.of_nat i < 256 ^ N.of_nat (bs - 1))%N -> (N.of_nat j < 256 ^ N.of_nat (bs - 1))%N ->
  ctr_at iv i = ctr_at iv j -> i = j.
Proof.
  intros [Hl Hb] Hbs Hi Hj E. destruct iv as [|a t]; [cbn in Hl; lia|]. subst bs. cbn [length] in *.
  rewrite Nat.sub_succ, Nat.sub_0_r in *. cbn [ctr_at] in E. injection E as E.
  set (M := (256 ^ N.of_nat (length t))%N) in *. assert (HM : M <> 0%N) by (apply N.pow_nonzero; lia).
  apply be_bytes_inj in E; [|apply N.mod_lt, HM|apply N.mod_lt, HM].
  apply mod_add_inj in E; [lia|exact HM|exact Hi|exact Hj].
Qed.

Section Cipher.
  Variable c : bcipher.
  Variable st : bc_st c.
  Notation bs := (bc_bs c).
  Let E := bc_enc c st.
  Let D := bc_dec c st.
  Let f := fn E.
  Let g := fn D.
  Hypothesis Hbs : 0 < bs.
  Hypothesis Hp : permutation bs E D.

  Lemma enc_ok x : blk bs x -> bc_enc c st x = Ok (f x) /\ blk bs (f x) /\ g (f x) = x.
  Proof. apply undoes_fn, Hp. Qed.
  Lemma dec_ok x : blk bs x -> bc_dec c st x = Ok (g x) /\ blk bs (g x) /\ f (g x) = x.
  Proof. apply undoes_fn, Hp. Qed.

  Lemma divmod q u : u < bs -> (q * bs + u) / bs = q /\ (q * bs + u) mod bs = u.
  Proof.
    intros Hu. rewrite Nat.div_add_l, Nat.div_small, Nat.add_0_r by lia.
    rewrite Nat.add_comm, Nat.mod_add, Nat.mod_small by lia. auto.
  Qed.

  (** *** CTR *)
  Section Ctr.
    Variable iv : list N.
    Hypothesis Hiv : blk bs iv.
    Definition lib_ctr_ks : nat -> N := ks_byte bs (fun i => f (ctr_at iv i)).

    Definition at_ctr (i : nat) (s : ctr c) : Prop :=
      ctr_blk c s = st /\
      ((i = 0 /\ ctr_x c s = iv /\ ctr_used c s = bs) \/
       exists q u, i = q * bs + u /\ 0 < u <= bs /\ ctr_x c s = ctr_at iv (S q) /\
         ctr_buf c s = f (ctr_at iv q) /\ ctr_used c s = u).

    Lemma ctr_refill_ok i s : at_ctr i s -> exists s', ctr_refill c s = Ok s' /\ ctr_blk c s' = st /\
      exists q u, i = q * bs + u /\ u < bs /\ ctr_x c s' = ctr_at iv (S q) /\
         ctr_buf c s' = f (ctr_at iv q) /\ ctr_used c s' = u.
    Proof.
      intros [Hb [(Hi & Hx & Hu)|(q & u & Hi & Hu & Hx & Hbuf & Hus)]]; unfold ctr_refill.
      - rewrite Hu, Nat.eqb_refl, Hb, Hx.
        destruct (enc_ok iv Hiv) as (Ee & _ & _). rewrite Ee. cbn [bind]. eexists. split; [reflexivity|].
        cbn [ctr_blk ctr_x ctr_buf ctr_used]. split; [reflexivity|]. exists 0, 0. repeat split; try lia.
        + rewrite <- (ctr_at_0 iv) at 1 by apply Hiv. now apply ctr_inc_at.
        + now rewrite ctr_at_0 by apply Hiv.
      - destruct (Nat.eqb_spec (ctr_used c s) bs) as [Eu|Nu].
        + rewrite Hb, Hx.
          destruct (enc_ok (ctr_at iv (S q)) (ctr_at_blk _ _ _ Hiv)) as (Ee & _ & _). rewrite Ee. cbn [bind].
          eexists. split; [reflexivity|]. cbn [ctr_blk ctr_x ctr_buf ctr_used]. split; [reflexivity|].
          exists (S q), 0. repeat split; try lia. now apply ctr_inc_at.
        + exists s. split; [reflexivity|]. split; [exact Hb|]. exists q, u. repeat split; try assumption; lia.
    Qed.

    Lemma ctr_next i s : at_ctr i s -> exists s' k, ctr_refill c s = Ok s' /\
      get (ctr_buf c s') (ctr_used c s') = Ok k /\ k = lib_ctr_ks i /\
      at_ctr (S i) {| ctr_blk := ctr_blk c s'; ctr_x := ctr_x c s'; ctr_buf := ctr_buf c s'; ctr_used := S (ctr_used c s') |}.
    Proof.
      intros H. destruct (ctr_refill_ok i s H) as (s' & Er & Hb & q & u & Hi & Hu & Hx & Hbuf & Hus).
      destruct (enc_ok (ctr_at iv q) (ctr_at_blk _ _ _ Hiv)) as (_ & [Hl _] & _).
      exists s', (nth u (f (ctr_at iv q)) 0%N). split; [exact Er|]. split; [|split].
      - rewrite Hbuf, Hus. apply get_ok. lia.
      - unfold lib_ctr_ks, ks_byte. subst i. destruct (divmod q u Hu) as [-> ->]. reflexivity.
      - split; [exact Hb|]. right. exists q, (S u). cbn [ctr_blk ctr_x ctr_buf ctr_used]. repeat split; try assumption; lia.
    Qed.

    Lemma ctr_step_ok i s b : at_ctr i s ->
      exists s', ctr_step c s b = Ok (s', N.lxor b (lib_ctr_ks i)) /\ at_ctr (S i) s'.
    Proof.
      intros H. destruct (ctr_next i s H) as (s' & k & E1 & E2 & -> & H'). unfold ctr_step. rewrite E1. cbn [bind].
      rewrite E2. cbn [bind]. eexists. split; [reflexivity|exact H'].
    Qed.
    Lemma ctr_prng_step_ok i s : at_ctr i s ->
      exists s', ctr_prng_step c s = Ok (s', lib_ctr_ks i) /\ at_ctr (S i) s'.
    Proof.
      intros H. destruct (ctr_next i s H) as (s' & k & E1 & E2 & -> & H'). unfold ctr_prng_step. rewrite E1. cbn [bind].
      rewrite E2. cbn [bind]. eexists. split; [reflexivity|exact H'].
    Qed.

    Lemma lib_ctr_ks_std n i : i < n * bs ->
      (be_val (skipn 1 iv) + N.of_nat n <= 256 ^ N.of_nat (bs - 1))%N -> lib_ctr_ks i = ctr_ks bs f iv i.
    Proof.
      intros Hi Hn. unfold lib_ctr_ks, ctr_ks, ks_byte. f_equal. f_equal. apply ctr_at_std; [exact Hiv|exact Hbs|].
      assert (i / bs < n) by (apply Nat.div_lt_upper_bound; lia). lia.
    Qed.
  End Ctr.

  (** *** OFB *)
  Section Ofb.
    Variable iv : list N.
    Hypothesis Hiv : blk bs iv.
    Lemma ofb_block_blk i : blk bs (ofb_block f iv i).
    Proof. induction i as [|i IH]; cbn [ofb_block]; now apply enc_ok. Qed.

    Definition at_ofb (i : nat) (s : fb c) : Prop :=
      fb_blk c s = st /\
      ((i = 0 /\ fb_prev c s = iv /\ fb_used c s = bs) \/
       exists q u, i = q * bs + u /\ 0 < u <= bs /\ fb_prev c s = ofb_block f iv q /\ fb_used c s = u).

    Lemma ofb_next i s : at_ofb i s -> exists s' k, fb_refill c s = Ok s' /\
      get (fb_prev c s') (fb_used c s') = Ok k /\ k = ofb_ks bs f iv i /\
      at_ofb (S i) {| fb_blk := fb_blk c s'; fb_prev := fb_prev c s'; fb_used := S (fb_used c s') |}.
    Proof.
      intros H.
      assert (R : exists s', fb_refill c s = Ok s' /\ fb_blk c s' = st /\
        exists q u, i = q * bs + u /\ u < bs /\ fb_prev c s' = ofb_block f iv q /\ fb_used c s' = u).
      { destruct H as [Hb [(Hi & Hx & Hu)|(q & u & Hi & Hu & Hx & Hus)]]; unfold fb_refill.
        - rewrite Hu, Nat.eqb_refl, Hb, Hx. destruct (enc_ok iv Hiv) as (Ee & _ & _). rewrite Ee. cbn [bind].
          eexists. split; [reflexivity|]. split; [reflexivity|]. exists 0, 0. repeat split; lia.
        - destruct (Nat.eqb_spec (fb_used c s) bs) as [Eu|Nu].
          + rewrite Hb, Hx. destruct (enc_ok _ (ofb_block_blk q)) as (Ee & _ & _). rewrite Ee. cbn [bind].
            eexists. split; [reflexivity|]. split; [reflexivity|]. exists (S q), 0. repeat split; lia.
          + exists s. split; [reflexivity|]. split; [exact Hb|]. exists q, u. repeat split; try assumption; lia. }
      destruct R as (s' & Er & Hb & q & u & Hi & Hu & Hx & Hus).
      destruct (ofb_block_blk q) as [Hl _].
      exists s', (nth u (ofb_block f iv q) 0%N). split; [exact Er|]. split; [|split].
      - rewrite Hx, Hus. apply get_ok. lia.
      - unfold ofb_ks, ks_byte. subst i. destruct (divmod q u Hu) as [-> ->]. reflexivity.
      - split; [exact Hb|]. right. exists q, (S u). cbn [fb_blk fb_prev fb_used]. repeat split; try assumption; lia.
    Qed.
    Lemma ofb_step_ok i s b : at_ofb i s ->
      exists s', ofb_step c s b = Ok (s', N.lxor b (ofb_ks bs f iv i)) /\ at_ofb (S i) s'.
    Proof.
      intros H. destruct (ofb_next i s H) as (s' & k & E1 & E2 & -> & H'). unfold ofb_step. rewrite E1. cbn [bind].
      rewrite E2. cbn [bind]. eexists. split; [reflexivity|exact H'].
    Qed.
    Lemma fb_prng_step_ok i s : at_ofb i s ->
      exists s', fb_prng_step c s = Ok (s', ofb_ks bs f iv i) /\ at_ofb (S i) s'.
    Proof.
      intros H. destruct (ofb_next i s H) as (s' & k & E1 & E2 & -> & H'). unfold fb_prng_step. rewrite E1. cbn [bind].
      rewrite E2. cbn [bind]. eexists. split; [reflexivity|exact H'].
    Qed.
  End Ofb.
End Cipher.
