(** PBKDF2. *)
From Coq Require Import NArith Arith List Bool Lia ZifyBool.
From Verif Require Import Lib.Res Lib.Bytes Lib.XorBytes Lib.Lists Lib.BlockLemmas Spec.Words Spec.Modes Spec.Mac Spec.Hmac Spec.Ae Spec.Kdf Model.MacApi Model.Kdf Proof.SkeinHashP.
Import ListNotations.
Local Open Scope N_scope.

(** The counter *)
Lemma pb_count_ok n c : (n <= 4)%nat -> c + 1 < 256 ^ N.of_nat n -> forall tl, pb_count (n - 1) (be_bytes n c ++ tl) = Ok (be_bytes n (c + 1) ++ tl).
Proof.
  revert c. induction n as [|n IH]; intros c Hn Hc tl; [cbn in Hc; lia|].
  replace (S n - 1)%nat with n by lia.
  assert (E : forall x, be_bytes (S n) x = be_bytes n (x / 256) ++ [x mod 256]) by (intros x; unfold be_bytes; cbn [le_bytes rev]; reflexivity).
  rewrite !E. assert (L : forall x, length (be_bytes n x) = n) by (intros; apply length_be_bytes).
  assert (N1 : nth n ((be_bytes n (c / 256) ++ [c mod 256]) ++ tl) 0 = c mod 256).
  { rewrite <- app_assoc, app_nth2 by (rewrite L; lia). rewrite L, Nat.sub_diag. reflexivity. }
  assert (U : forall v, upd ((be_bytes n (c / 256) ++ [c mod 256]) ++ tl) n v = be_bytes n (c / 256) ++ [v] ++ tl).
  { intros v. rewrite <- app_assoc. generalize (be_bytes n (c / 256)) (L (c / 256)). clear. intros l. revert n. induction l as [|x l IHl]; intros n Hn; cbn [length] in Hn; subst n; [reflexivity|]. cbn [upd app]. f_equal. now apply IHl. }
  destruct n as [|n].
  - cbn [pb_count]. rewrite N1, U. cbn [be_bytes le_bytes rev app nth]. change (256 ^ N.of_nat 1) with 256 in Hc.
    assert (c mod 256 = c) by (apply N.mod_small; lia). assert ((c + 1) mod 256 = c + 1) by (apply N.mod_small; lia). rewrite H, H0.
    destruct (N.eqb_spec (c + 1) 0); [lia|]. reflexivity.
  - cbn [pb_count]. rewrite N1, U.
    assert (N2 : forall v, nth (S n) (be_bytes (S n) (c / 256) ++ [v] ++ tl) 0 = v) by (intros v; rewrite app_nth2 by (rewrite L; lia); rewrite L, Nat.sub_diag; reflexivity).
    rewrite N2. assert (D := N.div_mod c 256 ltac:(discriminate)). assert (M := N.mod_lt c 256 ltac:(discriminate)).
    destruct (N.eqb_spec ((c mod 256 + 1) mod 256) 0) as [Z|Z].
    + assert (c mod 256 = 255). { destruct (N.eq_dec (c mod 256) 255) as [|X]; [assumption|]. rewrite N.mod_small in Z by lia. lia. }
      replace n with (S n - 1)%nat at 1 by lia.
      assert (E1 : (c + 1) / 256 = c / 256 + 1). { symmetry. apply (N.div_unique _ _ _ 0); lia. }
      assert (E2 : (c + 1) mod 256 = 0). { symmetry. apply (N.mod_unique _ _ (c / 256 + 1)); lia. }
      rewrite (IH (c / 256)).
      * rewrite E1, E2, Z. now rewrite <- app_assoc.
      * lia.
      * rewrite <- E1. apply N.div_lt_upper_bound; [discriminate|]. rewrite <- N.pow_succ_r'. replace (N.succ (N.of_nat (S n))) with (N.of_nat (S (S n))) by lia. exact Hc.
    + assert (X : c mod 256 <> 255) by (intros X; apply Z; rewrite X; reflexivity).
      assert (E0 : (c mod 256 + 1) mod 256 = c mod 256 + 1) by (apply N.mod_small; lia).
      assert (E1 : (c + 1) / 256 = c / 256). { symmetry. apply (N.div_unique _ _ _ (c mod 256 + 1)); lia. }
      assert (E2 : (c + 1) mod 256 = c mod 256 + 1). { symmetry. apply (N.mod_unique _ _ (c / 256)); lia. }
      rewrite E0, E1, E2. now rewrite <- app_assoc.
Qed.
Lemma pb_count4 c : c + 1 < 2 ^ 32 -> pb_count 3 (be_bytes 4 c) = Ok (be_bytes 4 (c + 1)).
Proof. intros H. assert (E := pb_count_ok 4 c (le_n 4) H []). rewrite !app_nil_r in E. exact E. Qed.
Lemma pb_count_end : pb_count 3 (be_bytes 4 (2 ^ 32 - 1)) = Err AssertFail.
Proof. reflexivity. Qed.

Lemma pb_xor_eq x buf0 buf1 : length buf0 = x -> length buf1 = x -> pb_xor x buf0 buf1 = xor_bytes buf1 buf0.
Proof.
  intros L0 L1. unfold pb_xor.
  assert (G : forall k, (k <= x)%nat -> pfor k 0 (fun y b => upd b y (N.lxor (nth y b 0) (nth y buf0 0))) buf1 = xor_bytes (firstn k buf1) (firstn k buf0) ++ skipn k buf1).
  { induction k as [|k IH]; intros Hk; [reflexivity|]. rewrite pfor_S, IH by lia. cbn [Nat.add].
    assert (Lx : length (xor_bytes (firstn k buf1) (firstn k buf0)) = k) by (rewrite length_xor, !firstn_length; lia).
    rewrite (skipn_cons buf1 k 0) by lia. rewrite app_nth2 by lia. rewrite Lx, Nat.sub_diag. cbn [nth].
    assert (U : forall (l : list N) a b t, length l = k -> upd (l ++ a :: t) k b = l ++ b :: t).
    { clear. intros l. revert k. induction l as [|y l IHl]; intros k a b t E; cbn [length] in E; subst k; [reflexivity|]. cbn [upd app]. f_equal. now apply IHl. }
    rewrite U by exact Lx. rewrite (firstn_S_nth buf1 k 0), (firstn_S_nth buf0 k 0) by lia. rewrite xor_app by (rewrite !firstn_length; lia). cbn [xor_bytes]. now rewrite <- app_assoc. }
  rewrite G by lia. rewrite !firstn_all2, skipn_all2 by lia. apply app_nil_r.
Qed.

Section Pbkdf2.
  Variables (d : mac) (r : N) (iter : N) (pass salt : list N) (x : nat) (okl : list nat -> Prop) (okm : nat -> Prop) (T : list N -> list N).
  Hypotheses (Hs : mac_steady d r pass x okl okm T) (Hl : okl [x]) (Hd : digests x okm T) (Bs : bytes_ok salt) (Os : okm (length salt + 4)%nat) (Ox : 1 < iter -> okm x).
  Let prf (m : list N) : list N := firstn x (T m).
  Lemma prf_ok m : bytes_ok m -> okm (length m) -> bytes_ok (prf m) /\ length (prf m) = x.
  Proof. intros B O. destruct (Hd m B O) as [B' L]. split; [now apply bytes_firstn|]. unfold prf. rewrite firstn_length. lia. Qed.
  Definition fresh (m : mc_st d) : Prop := mac_kept d r pass x m /\ mac_gives d (Ok m) okl okm T.
  (** one tag *)
  Lemma pb_tag m parts : fresh m -> Forall bytes_ok parts -> okm (length (concat parts)) ->
    exists m1 m2, mfeed d m parts = Ok m1 /\ mac_tag d m1 x = Ok (m2, prf (concat parts)) /\ mac_kept d r pass x m2.
  Proof.
    intros [K G] B O. destruct (G parts B O) as [H _]. specialize (H [x] Hl). unfold tag_of in H. cbn [bind] in H.
    destruct (mfeed d m parts) as [m1|] eqn:E1; [|discriminate H]. cbn [bind mtags] in H. destruct (mac_tag d m1 x) as [[m2 t]|] eqn:E2; [|discriminate H]. cbn [bind fst snd] in H.
    apply Ok_inj in H. rewrite app_nil_r in H. cbn [list_sum fold_right] in H. rewrite Nat.add_0_r in H. exists m1, m2. split; [reflexivity|]. split; [rewrite E2, H; reflexivity|].
    apply (mk_used d r pass x m); [exact K|]. clear - E1 E2. revert m E1. induction parts as [|p parts IH]; intros m E1.
    - cbn [mfeed] in E1. apply Ok_inj in E1. subst m1. eapply mu_tag; [exact E2|apply mu_none].
    - cbn [mfeed] in E1. destruct (mac_input d m p) as [m'|] eqn:E; [|discriminate E1]. eapply mu_input; [exact E|]. apply IH. exact E1.
  Qed.
  Lemma pb_fresh0 : exists m, mac_create d r pass x = Ok m /\ fresh m.
  Proof.
    destruct Hs as [G _]. assert (X : exists m, mac_create d r pass x = Ok m).
    { destruct (G [salt; repeat 0 4]) as [H _].
      - constructor; [exact Bs|]. constructor; [|constructor]. apply Forall_forall. intros y Hy. apply repeat_spec in Hy. subst y. reflexivity.
      - cbn [concat]. rewrite app_nil_r, app_length, repeat_length. exact Os.
      - specialize (H [x] Hl). unfold tag_of in H. destruct (mac_create d r pass x) as [m|]; [exists m; reflexivity|discriminate H]. }
    destruct X as [m E]. exists m. split; [exact E|]. split; [apply mk_new; exact E|]. rewrite <- E. exact G.
  Qed.
  Lemma pb_again m : mac_kept d r pass x m -> exists m', mac_recreate d m r pass x = Ok m' /\ fresh m'.
  Proof.
    intros K. destruct Hs as [_ G0]. assert (G := G0 m K). assert (X : exists m', mac_recreate d m r pass x = Ok m').
    { destruct (G [salt; repeat 0 4]) as [H _].
      - constructor; [exact Bs|]. constructor; [|constructor]. apply Forall_forall. intros y Hy. apply repeat_spec in Hy. subst y. reflexivity.
      - cbn [concat]. rewrite app_nil_r, app_length, repeat_length. exact Os.
      - specialize (H [x] Hl). unfold tag_of in H. destruct (mac_recreate d m r pass x) as [m'|]; [exists m'; reflexivity|discriminate H]. }
    destruct X as [m' E]. exists m'. split; [exact E|]. split; [apply (mk_again d r pass x m); assumption|]. rewrite <- E. exact G.
  Qed.
  Lemma pb_sum_len k : forall u, bytes_ok u -> length u = x -> (0 < k -> okm x)%nat -> bytes_ok (pb_sum prf k u) /\ length (pb_sum prf k u) = x.
  Proof.
    induction k as [|k IH]; intros u B L O; [split; assumption|]. cbn [pb_sum]. assert (Oq : okm x) by (apply O; lia). destruct (prf_ok u B ltac:(now rewrite L)) as [B1 L1].
    destruct (IH (prf u) B1 L1 (fun _ => Oq)) as [B2 L2]. split; [now apply bytes_xor|]. rewrite length_xor. lia.
  Qed.
  Lemma pb_inner k : forall i m u acc, mac_kept d r pass x m -> bytes_ok u -> length u = x -> length acc = x -> (0 < k -> okm x)%nat ->
    exists m' u', mfor k i (fun _ => pb_step d r pass x) (m, u, acc) = Ok (m', u', match k with O => acc | S k => xor_bytes acc (pb_sum prf k (prf u)) end) /\ mac_kept d r pass x m'.
  Proof.
    induction k as [|k IH]; intros i m u acc K B L La O; [exists m, u; split; [reflexivity|exact K]|].
    assert (Oq : okm x) by (apply O; lia). cbn [mfor]. unfold pb_step at 1. destruct (pb_again m K) as (m1 & E1 & F1). rewrite E1. cbn [bind].
    destruct (pb_tag m1 [u] F1) as (m2 & m3 & E2 & E3 & K3).
    { constructor; [exact B|constructor]. }
    { cbn [concat]. rewrite app_nil_r, L. exact Oq. }
    cbn [mfeed concat] in E2, E3. rewrite app_nil_r in E3. destruct (mac_input d m1 u) as [m2'|] eqn:E4; [|discriminate E2]. cbn [bind] in E2. apply Ok_inj in E2. subst m2'. cbn [bind]. rewrite E3. cbn [bind fst snd].
    destruct (prf_ok u B ltac:(now rewrite L)) as [B1 L1]. rewrite pb_xor_eq by assumption.
    destruct (IH (S i) m3 (prf u) (xor_bytes acc (prf u)) K3 B1 L1 ltac:(rewrite length_xor; lia) (fun _ => Oq)) as (m' & u' & E & K').
    exists m', u'. split; [|exact K']. rewrite E. f_equal. f_equal. destruct k as [|k]; [reflexivity|]. cbn [pb_sum]. now rewrite xor_assoc.
  Qed.
  Lemma pb_loop_ok fuel : (0 < x)%nat -> forall m i len, fresh m -> (0 < len)%nat -> (len <= fuel)%nat -> N.of_nat (i + pb_blocks x len) < 2 ^ 32 -> 0 < iter ->
    pb_loop d r iter pass salt x fuel m (be_bytes 4 (N.of_nat i)) len = Ok (firstn len (concat (map (pb_block prf iter salt) (seq (S i) (pb_blocks x len))))).
  Proof.
    intros Hx. induction fuel as [|fuel IH]; intros m i len F Hlen Hf Hi Hit; [lia|].
    assert (P1 : (1 <= pb_blocks x len)%nat) by (unfold pb_blocks; apply (Nat.div_le_lower_bound); lia).
    cbn [pb_loop]. rewrite pb_count4 by lia. cbn [bind]. replace (N.of_nat i + 1) with (N.of_nat (S i)) by lia.
    destruct (pb_tag m [salt; be_bytes 4 (N.of_nat (S i))] F) as (m1 & m2 & E1 & E2 & K2).
    { constructor; [exact Bs|]. constructor; [apply bytes_be_bytes|constructor]. }
    { cbn [concat]. rewrite app_nil_r, app_length, length_be_bytes. exact Os. }
    cbn [mfeed concat] in E1, E2. rewrite app_nil_r in E2. destruct (mac_input d m salt) as [ma|]; [|discriminate E1]. cbn [bind] in E1 |- *.
    destruct (mac_input d ma (be_bytes 4 (N.of_nat (S i)))) as [mb|]; [|discriminate E1]. cbn [bind] in E1 |- *. apply Ok_inj in E1. subst mb. rewrite E2. cbn [bind fst snd].
    set (u := prf (salt ++ be_bytes 4 (N.of_nat (S i)))) in *.
    assert (Bu : bytes_ok u /\ length u = x). { apply prf_ok; [apply Forall_app; split; [exact Bs|apply bytes_be_bytes]|]. rewrite app_length, length_be_bytes. exact Os. }
    destruct Bu as [Bu Lu]. assert (Ox' : (0 < N.to_nat (iter - 1) -> okm x)%nat) by (intros X; apply Ox; lia).
    destruct (pb_inner (N.to_nat (iter - 1)) 0 m2 u u K2 Bu Lu Lu Ox') as (m3 & u3 & E3 & K3). rewrite E3. cbn [bind fst snd].
    assert (Eb : match N.to_nat (iter - 1) with O => u | S k => xor_bytes u (pb_sum prf k (prf u)) end = pb_block prf iter salt (S i)).
    { unfold pb_block. fold u. destruct (N.to_nat (iter - 1)); reflexivity. }
    rewrite Eb. assert (Lb : length (pb_block prf iter salt (S i)) = x). { unfold pb_block. fold u. now apply pb_sum_len. }
    destruct (Nat.eqb_spec (len - Nat.min x len) 0) as [Z|Z].
    - assert (E : pb_blocks x len = 1%nat). { unfold pb_blocks. symmetry. apply (Nat.div_unique _ _ _ (len - 1)); lia. }
      rewrite E. cbn [seq map concat]. rewrite app_nil_r. replace (Nat.min x len) with len by lia. reflexivity.
    - destruct (pb_again m3 K3) as (m4 & E4 & F4). rewrite E4. cbn [bind]. replace (Nat.min x len) with x in * by lia.
      assert (E : pb_blocks x len = S (pb_blocks x (len - x))).
      { unfold pb_blocks. replace (len + x - 1)%nat with ((len - x + x - 1) + 1 * x)%nat by lia. rewrite Nat.div_add by lia. lia. }
      rewrite IH; [|exact F4|lia|lia|rewrite E in Hi; lia|exact Hit]. cbn [bind]. rewrite E. cbn [seq map concat]. f_equal.
      rewrite firstn_app, Lb. rewrite (firstn_all2 (n := len)) by lia. f_equal. apply firstn_all2. lia.
  Qed.
End Pbkdf2.

(** Tag length [x]: the length of the output or that of a full tag, whichever is less. *)
Theorem pbkdf2_ok d r iter pass salt len okl okm T : let x := Nat.min len (mc_maxtag d) in
  mac_steady d r pass x okl okm T -> okl [x] -> digests x okm T -> bytes_ok salt -> okm (length salt + 4)%nat -> (1 < iter -> okm x) -> 0 < iter ->
  (0 < mc_maxtag d)%nat -> N.of_nat (pb_blocks x len) < 2 ^ 32 ->
  pbkdf2 d r iter pass salt len = Ok (pbkdf2_key (fun m => firstn x (T m)) x iter salt len).
Proof.
  intros x Hs Hl Hd Bs Os Ox Hi Hm Hb. unfold pbkdf2. destruct (N.eqb_spec iter 0); [lia|]. cbn [negb assert_].
  replace (if (len <? mc_maxtag d)%nat then len else mc_maxtag d) with x by (unfold x; destruct (Nat.ltb_spec len (mc_maxtag d)); lia).
  destruct (pb_fresh0 d r pass salt x okl okm T Hs Hl Bs Os) as (m & E & F). rewrite E. cbn [bind].
  destruct (Nat.eq_dec len 0) as [->|Z].
  - cbn [pb_loop]. change [0; 0; 0; 0] with (be_bytes 4 0). rewrite pb_count4 by lia. cbn [bind]. change (0 + 1) with 1.
    destruct (pb_tag d r pass x okl okm T Hl m [salt; be_bytes 4 1] F) as (m1 & m2 & E1 & E2 & K2).
    { constructor; [exact Bs|]. constructor; [apply bytes_be_bytes|constructor]. }
    { cbn [concat]. rewrite app_nil_r, app_length, length_be_bytes. exact Os. }
    cbn [mfeed concat] in E1, E2. destruct (mac_input d m salt) as [ma|]; [|discriminate E1]. cbn [bind] in E1 |- *.
    destruct (mac_input d ma (be_bytes 4 1)) as [mb|]; [|discriminate E1]. cbn [bind] in E1 |- *. apply Ok_inj in E1. subst mb. rewrite E2. cbn [bind fst snd].
    assert (x = 0)%nat by (unfold x; lia).
    destruct (pb_inner d r iter pass salt x okl okm T Hs Hl Hd Bs Os Ox (N.to_nat (iter - 1)) 0 m2 (firstn x (T (salt ++ be_bytes 4 1 ++ []))) (firstn x (T (salt ++ be_bytes 4 1 ++ []))) K2) as (m3 & u3 & E3 & K3).
    { rewrite H. constructor. }
    { rewrite H. reflexivity. }
    { rewrite H. reflexivity. }
    { intros X. apply Ox. lia. }
    rewrite E3. cbn [bind]. rewrite Nat.min_0_r. reflexivity.
  - change [0; 0; 0; 0] with (be_bytes 4 (N.of_nat 0)). apply (pb_loop_ok d r iter pass salt x okl okm T); try assumption; try lia.
Qed.
