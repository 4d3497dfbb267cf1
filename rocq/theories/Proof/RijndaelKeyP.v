(** Rijndael: the key schedule, and what create, encrypt and decrypt do together. *)
From Coq Require Import NArith Arith List Bool Lia.
From Verif Require Import Lib.Word Lib.Res Lib.Bytes Lib.Bij Lib.Bits Lib.GfP Lib.WordSpec Lib.Lists Lib.WordsP Lib.BlockLemmas
  Model.LoadStore Model.BlockApi Model.Rijndael Spec.Block Spec.Gf Spec.Words Spec.Aes Proof.LoadStoreP Proof.RijndaelTab Proof.RijndaelP.
Import ListNotations.
Local Open Scope N_scope.

(** ** Decryption keys *)
Lemma pos_div bs b x : (x < bs)%nat -> ((b * bs + x) / bs = b)%nat.
Proof. intros H. symmetry. apply (Nat.div_unique _ bs b x); [exact H|lia]. Qed.
Lemma pos_mod bs b x : (x < bs)%nat -> ((b * bs + x) mod bs = x)%nat.
Proof. intros H. symmetry. apply (Nat.mod_unique _ bs b x); [exact H|lia]. Qed.
Section Rev.
  Variables (bs r : nat) (k : list N).
  Hypothesis Hbs : (0 < bs)%nat.
  Let len := (S r * bs)%nat.
  Definition target (p : nat) : N := nth ((r - p / bs) * bs + p mod bs) k 0.
  Lemma reverse_ok dk : length dk = len -> length (rj_reverse bs r k dk) = len /\ forall p, (p < len)%nat -> nth p (rj_reverse bs r k dk) 0 = target p.
  Proof.
    intros L. unfold rj_reverse.
    pose proof (pfor_inv (fun b dk => length dk = len /\ forall p, (p < len)%nat -> (p / bs < b \/ r - p / bs < b)%nat -> nth p dk 0 = target p)
      (S (r / 2)) 0 (fun b dk =>
    let i := (b * bs)%nat in let j := ((r - b) * bs)%nat in
    pfor bs 0 (fun x dk => upd (upd dk (i + x) (nth (j + x) k 0)) (j + x) (nth (i + x) k 0)) dk) dk) as H.
    destruct H as [H1 H2].
    - intros b d Hb [Ld Hd]. cbv zeta. assert (D := Nat.div_mod r 2 ltac:(lia)). assert (D2 := Nat.mod_upper_bound r 2 ltac:(lia)).
      pose proof (pfor_inv (fun x dk => length dk = len /\ forall p, (p < len)%nat ->
        (p / bs < b \/ r - p / bs < b \/ ((p / bs = b \/ p / bs = r - b) /\ p mod bs < x))%nat -> nth p dk 0 = target p)
        bs 0 (fun x dk => upd (upd dk (b * bs + x) (nth ((r - b) * bs + x) k 0)) ((r - b) * bs + x) (nth (b * bs + x) k 0)) d) as Q.
      destruct Q as [Q1 Q2].
      + intros x e Hx [Le He]. split; [now rewrite !length_upd|]. intros p Hp Hc.
        destruct (Nat.eq_dec p ((r - b) * bs + x)) as [->|N1].
        * rewrite nth_upd, length_upd, Nat.eqb_refl. replace ((r - b) * bs + x <? length e)%nat with true by (symmetry; apply Nat.ltb_lt; lia).
          cbn [andb]. unfold target. rewrite pos_div, pos_mod by lia. f_equal. f_equal. f_equal. lia.
        * rewrite nth_upd. replace (Nat.eqb p ((r - b) * bs + x)) with false by (symmetry; apply Nat.eqb_neq; auto).
          cbn [andb].
          destruct (Nat.eq_dec p (b * bs + x)) as [->|N2].
          -- rewrite nth_upd, Nat.eqb_refl. replace (b * bs + x <? length e)%nat with true by (symmetry; apply Nat.ltb_lt; lia).
             cbn [andb]. unfold target. now rewrite pos_div, pos_mod by lia.
          -- rewrite nth_upd. replace (Nat.eqb p (b * bs + x)) with false by (symmetry; apply Nat.eqb_neq; auto).
             cbn [andb].
             apply He; [exact Hp|]. destruct Hc as [Hc|[Hc|[Hc Hm]]]; [now left|now right; left|]. right. right. split; [exact Hc|].
             assert (E := Nat.div_mod p bs ltac:(lia)). destruct Hc as [Hc|Hc]; rewrite Hc in E.
             ++ assert (p mod bs <> x)%nat by (intros X; rewrite X in E; apply N2; lia). lia.
             ++ assert (p mod bs <> x)%nat by (intros X; rewrite X in E; apply N1; lia). lia.
      + split; [exact Ld|]. intros p Hp Hc. apply Hd; [exact Hp|]. lia.
      + split; [exact Q1|]. intros p Hp Hc. apply Q2; [exact Hp|]. assert (M := Nat.mod_upper_bound p bs ltac:(lia)).
        assert (B : (p / bs <= r)%nat) by (apply Nat.lt_succ_r; apply Nat.div_lt_upper_bound; unfold len in Hp; lia). lia.
    - split; [exact L|]. intros p Hp Hc. lia.
    - split; [exact H1|]. intros p Hp. apply H2; [exact Hp|]. assert (B : (p / bs <= r)%nat) by (apply Nat.lt_succ_r; apply Nat.div_lt_upper_bound; unfold len in Hp; lia).
      assert (D := Nat.div_mod r 2 ltac:(lia)). assert (D2 := Nat.mod_upper_bound r 2 ltac:(lia)). lia.
  Qed.
  Lemma imc_loop dk n a : length dk = len -> (a + n <= len)%nat ->
    let d := pfor n a (fun i dk => upd dk i (rj_imc (nth i dk 0))) dk in
    length d = len /\ forall p, nth p d 0 = if (a <=? p)%nat && (p <? a + n)%nat then rj_imc (nth p dk 0) else nth p dk 0.
  Proof.
    intros L Ha d.
    pose proof (pfor_inv (fun j d => length d = len /\ forall p, nth p d 0 = if (a <=? p)%nat && (p <? j)%nat then rj_imc (nth p dk 0) else nth p dk 0)
      n a (fun i dk => upd dk i (rj_imc (nth i dk 0))) dk) as H. apply H.
    - intros j e Hj [Le He]. split; [now rewrite length_upd|]. intros p. rewrite nth_upd. destruct (Nat.eqb_spec p j) as [<-|N1].
      + replace (p <? length e)%nat with true by (symmetry; apply Nat.ltb_lt; lia). cbn [andb]. rewrite He.
        replace (a <=? p)%nat with true by (symmetry; apply Nat.leb_le; lia). replace (p <? p)%nat with false by (symmetry; apply Nat.ltb_ge; lia).
        replace (p <? S p)%nat with true by (symmetry; apply Nat.ltb_lt; lia). reflexivity.
      + cbn [andb]. rewrite He. destruct (Nat.ltb_spec p j), (Nat.ltb_spec p (S j)); try reflexivity; lia.
    - split; [exact L|]. intros p. destruct (Nat.leb_spec a p), (Nat.ltb_spec p a); try reflexivity; lia.
  Qed.
End Rev.

Definition rj_deckeys (bs r : nat) (k : list N) : list N :=
  let len := (S r * bs)%nat in
  pfor (len - bs - bs) bs (fun i dk => upd dk i (rj_imc (nth i dk 0))) (rj_reverse bs r k (repeat 0 len)).
Lemma nth_round_key nb w i c : (c < nb)%nat -> nth c (round_key nb w i) [] = nth (nb * i + c) w [].
Proof. intros H. unfold round_key. rewrite nth_firstn by exact H. now rewrite nth_skipn. Qed.
Lemma deckeys_ok nb nr k : (0 < nb)%nat -> (1 <= nr)%nat -> regs 32 (nb * (nr + 1)) k -> regs 32 (nb * (nr + 1)) (rj_deckeys nb nr k) /\ dec_keys (nb := nb) nr k (rj_deckeys nb nr k).
Proof.
  intros Hn Hr [L W]. set (len := (S nr * nb)%nat). assert (EL : len = (nb * (nr + 1))%nat) by (unfold len; lia).
  destruct (reverse_ok nb nr k Hn (repeat 0 len) (repeat_length _ _)) as [R1 R2]. fold len in R1, R2.
  destruct (imc_loop nb nr Hn (rj_reverse nb nr k (repeat 0 len)) (len - nb - nb) nb R1 ltac:(unfold len; nia)) as [D1 D2].
  assert (V : forall p, (p < len)%nat -> nth p (rj_deckeys nb nr k) 0 =
    if (nb <=? p)%nat && (p <? nb + (len - nb - nb))%nat then rj_imc (target nb nr k p) else target nb nr k p).
  { intros p Hp. unfold rj_deckeys. fold len. rewrite D2, R2 by exact Hp. reflexivity. }
  assert (LD : length (rj_deckeys nb nr k) = len) by exact D1. clear D1 D2 R1 R2.
  assert (T : forall p, inw 32 (target nb nr k p)) by (intros p; apply words_nth, W).
  assert (WD : words_ok 32 (rj_deckeys nb nr k)).
  { apply Forall_forall. intros x Hx. apply (In_nth _ _ 0) in Hx. destruct Hx as (p & Hp & <-). rewrite LD in Hp. rewrite V by exact Hp.
    destruct (_ && _); [apply imc_col, T|apply T]. }
  split; [split; [now rewrite LD|exact WD]|]. intros i Hi.
  assert (SL : forall w j, length w = len -> (j <= nr)%nat -> length (round_key nb (cols w) j) = nb).
  { intros w j Lw Hj. unfold round_key. rewrite firstn_length, skipn_length, map_length, Lw. unfold len. nia. }
  assert (LK : length k = len) by (rewrite EL; exact L).
  assert (TG : forall c, (c < nb)%nat -> target nb nr k (nb * i + c) = nth (nb * (nr - i) + c) k 0).
  { intros c Hc. unfold target. rewrite (Nat.mul_comm nb i), pos_div, pos_mod by exact Hc. f_equal. f_equal. apply Nat.mul_comm. }
  assert (IX : forall j c, (j <= nr)%nat -> (c < nb)%nat -> (nb * j + c < len)%nat) by (intros j c Hj Hc; unfold len; nia).
  destruct ((i =? 0)%nat || (i =? nr)%nat) eqn:E.
  - apply (nth_ext _ _ [] []); [rewrite !SL by (try exact LD; try exact LK; lia); reflexivity|]. intros c Hc. rewrite SL in Hc by (try exact LD; lia).
    rewrite !nth_round_key by exact Hc. rewrite (nth_map_lt (be_bytes 4) (rj_deckeys nb nr k) _ [] 0) by (rewrite LD; now apply IX).
    rewrite (nth_map_lt (be_bytes 4) k _ [] 0) by (rewrite LK; apply IX; lia). f_equal. rewrite V by now apply IX.
    rewrite TG by exact Hc.
    replace ((nb <=? nb * i + c)%nat && (nb * i + c <? nb + (len - nb - nb))%nat) with false; [reflexivity|]. symmetry. apply andb_false_iff.
    apply orb_prop in E. destruct E as [E|E]; apply Nat.eqb_eq in E; subst i; [left; apply Nat.leb_gt; lia|right; apply Nat.ltb_ge; unfold len; nia].
  - apply orb_false_iff in E. destruct E as [E1 E2]. apply Nat.eqb_neq in E1. apply Nat.eqb_neq in E2. unfold inv_mix_columns.
    apply (nth_ext _ _ [] []); [rewrite map_length, !SL by (try exact LD; try exact LK; lia); reflexivity|]. intros c Hc. rewrite SL in Hc by (try exact LD; lia).
    rewrite (nth_map_lt (mat unmix_m) _ c [] []) by (rewrite SL; [exact Hc|exact LK|lia]).
    rewrite !nth_round_key by exact Hc. rewrite (nth_map_lt (be_bytes 4) (rj_deckeys nb nr k) _ [] 0) by (rewrite LD; now apply IX).
    rewrite (nth_map_lt (be_bytes 4) k _ [] 0) by (rewrite LK; apply IX; lia). rewrite V by now apply IX. rewrite TG by exact Hc.
    replace ((nb <=? nb * i + c)%nat && (nb * i + c <? nb + (len - nb - nb))%nat) with true.
    + apply imc_col. now apply words_nth.
    + symmetry. apply andb_true_intro. split; [apply Nat.leb_le; nia|apply Nat.ltb_lt; unfold len; nia].
Qed.

(** ** Expansion *)
Lemma rcon_length : length rj_rcon = 52%nat. Proof. reflexivity. Qed.
Lemma rcon_check : forallb (fun x => if list_eq_dec N.eq_dec (col (nth x rj_rcon 0)) (aes_rcon (S x)) then true else false) (seq 0 51) = true.
Proof. vm_compute. reflexivity. Qed.
Lemma rcon_inw : forallb (fun c => c <? 2 ^ 32) rj_rcon = true. Proof. vm_compute. reflexivity. Qed.
Lemma rcon_eq x : (x < 51)%nat -> col (nth x rj_rcon 0) = aes_rcon (S x).
Proof.
  intros H. pose proof rcon_check as F. rewrite forallb_forall in F. specialize (F x ltac:(apply in_seq; lia)). now destruct (list_eq_dec _ _ _).
Qed.
Lemma rcon_word x : inw 32 (nth x rj_rcon 0).
Proof.
  destruct (Nat.lt_ge_cases x 52) as [H|H]; [|rewrite nth_overflow by exact H; reflexivity].
  pose proof rcon_inw as F. rewrite forallb_forall in F. specialize (F (nth x rj_rcon 0) ltac:(now apply nth_In)). now apply N.ltb_lt.
Qed.
Lemma word_ok n x i k : (0 < n)%nat -> (i < n)%nat -> (x < 52)%nat -> words_ok 32 k -> length k = (n * S x + i)%nat ->
  exists w, rj_word n x i k = Ok w /\ inw 32 w /\ ((x < 51)%nat -> col w = next_word n (cols k)).
Proof.
  intros Hn Hi Hx W L. unfold rj_word. set (t := nth (length k - 1) k 0). set (old := nth (length k - n) k 0).
  assert (Ht : inw 32 t) by now apply words_nth. assert (Ho : inw 32 old) by now apply words_nth.
  unfold next_word. rewrite map_length. rewrite (nth_map_lt (be_bytes 4) k (length k - 1) [] 0) by nia. rewrite (nth_map_lt (be_bytes 4) k (length k - n) [] 0) by nia.
  fold t old.
  replace (length k mod n)%nat with i by (rewrite L; apply (Nat.mod_unique _ n (S x) i); lia).
  replace (length k / n)%nat with (S x) by (rewrite L; apply (Nat.div_unique _ n (S x) i); lia).
  destruct (Nat.eqb_spec i 0) as [->|Hi0].
  - rewrite (get_ok rj_rcon x 0) by (rewrite rcon_length; exact Hx). cbn [bind]. eexists. split; [reflexivity|].
    change (N.land (N.shiftr t 16) 0xFF) with (byte4 t 1). change (N.land (N.shiftr t 8) 0xFF) with (byte4 t 2). change (N.land t 0xFF) with (byte t).
    rewrite (low_byte t), (top_byte t Ht), (te4_sb (byte4 t 1)), (te4_sb (byte4 t 2)), (te4_sb (byte4 t 3)), (te4_sb (byte4 t 0)).
    assert (B : forall j, sb (byte4 t j) < 256) by (intros j; apply sb_bound, byte4_bound).
    split.
    + assert (P := pack_inw _ _ _ _ (B 1%nat) (B 2%nat) (B 3%nat) (B 0%nat)). pose proof (rcon_word x). wb.
    + intros H51. rewrite !col_lxor, (col_pack _ _ _ _ (B 1%nat) (B 2%nat) (B 3%nat) (B 0%nat)), rcon_eq by exact H51.
      rewrite (col_bytes t). unfold sub_word, rot_word. cbn [map]. rewrite !bxor_vxor. apply vxor_assoc.
  - replace (negb (n <=? 6)%nat) with (6 <? n)%nat by (rewrite Nat.ltb_antisym; reflexivity).
    destruct ((6 <? n)%nat && (i =? 4)%nat) eqn:E; eexists; (split; [reflexivity|]).
    + destruct (EL_col t t t t Ht) as [P1 P2]. split; [wb|]. intros _. rewrite col_lxor, P2, (col_bytes t), bxor_vxor. reflexivity.
    + split; [wb|]. intros _. rewrite col_lxor, bxor_vxor. reflexivity.
Qed.
Lemma expand_ok n len k0 : (0 < n)%nat -> (n <= len)%nat -> (len <= 53 * n)%nat -> regs 32 n k0 ->
  exists k, rj_expand n len k0 = Ok k /\ regs 32 len k /\
    ((len <= 52 * n)%nat -> cols k = Nat.iter (len - n) (fun ws => ws ++ [next_word n ws]) (cols k0)).
Proof.
  intros Hn Hl H53 [L0 W0]. unfold rj_expand.
  set (P := fun m (k : list N) => length k = Nat.min len m /\ words_ok 32 k /\
    ((len <= 52 * n)%nat -> cols k = Nat.iter (length k - n) (fun ws => ws ++ [next_word n ws]) (cols k0))).
  assert (Step : forall x i k, (i < n)%nat -> P (n * S x + i)%nat k ->
    exists k', (if (n * S x + i <? len)%nat then let* w := rj_word n x i k in Ok (k ++ [w]) else Ok k) = Ok k' /\ P (n * S x + S i)%nat k').
  { intros x i k Hi (L & W & C). destruct (Nat.ltb_spec (n * S x + i) len) as [G|G].
    - assert (L' : length k = (n * S x + i)%nat) by lia. assert (X : (x < 52)%nat) by nia.
      destruct (word_ok n x i k Hn Hi X W L') as (w & E & Hw & Cw). rewrite E. cbn [bind]. exists (k ++ [w]). split; [reflexivity|]. split; [|split].
      + rewrite app_length. cbn [length]. lia.
      + apply Forall_app. split; [exact W|]. now constructor.
      + intros H52. rewrite app_length. cbn [length]. replace (length k + 1 - n)%nat with (S (length k - n)) by nia.
        cbn [Nat.iter nat_rect]. rewrite map_app. cbn [map]. rewrite Cw by nia. specialize (C H52). unfold Nat.iter in C. rewrite <- C. reflexivity.
    - exists k. split; [reflexivity|]. split; [lia|]. now split. }
  destruct (mfor_inv (fun x => P (n * S x)%nat) ((len - 1) / n) 0 (fun x k =>
    mfor n 0 (fun i k => if (n * S x + i <? len)%nat then let* w := rj_word n x i k in Ok (k ++ [w]) else Ok k) k) k0) as (k & E & L & W & C).
  - intros x k Hx HP.
    destruct (mfor_inv (fun i => P (n * S x + i)%nat) n 0 (fun i k => if (n * S x + i <? len)%nat then let* w := rj_word n x i k in Ok (k ++ [w]) else Ok k) k) as (k' & E & HP').
    + intros i y Hi Hy. apply Step; [lia|exact Hy].
    + now rewrite Nat.add_0_r.
    + exists k'. split; [exact E|]. now replace (n * S (S x))%nat with (n * S x + (0 + n))%nat by lia.
  - split; [lia|]. split; [exact W0|]. intros _. rewrite L0, Nat.sub_diag. reflexivity.
  - exists k. split; [exact E|]. assert (D := Nat.div_mod (len - 1) n ltac:(lia)). assert (M := Nat.mod_upper_bound (len - 1) n ltac:(lia)).
    assert (LL : length k = len). { rewrite L. cbn [Nat.add]. nia. }
    split; [now split|]. intros H. rewrite LL in C. now apply C.
Qed.

(** ** Objects *)
Definition rj_n (key : list N) : nat := Nat.div (length key + 3) 4.
Lemma rj_n_bounds key : key_ok 32 key -> (1 <= rj_n key <= 8)%nat /\ (length key <= 4 * rj_n key)%nat.
Proof.
  intros [_ [H1 H2]]. unfold rj_n. assert (D := Nat.div_mod (length key + 3) 4 ltac:(lia)). assert (M := Nat.mod_upper_bound (length key + 3) 4 ltac:(lia)). lia.
Qed.
Lemma key_cols key n : bytes_ok key -> (length key <= 4 * n)%nat -> cols (key32b key n) = key_words n (zero_pad (4 * n) key).
Proof.
  intros B L. rewrite key32b_loads, loads32b_be by assumption. unfold be_words, key_words. rewrite map_map. apply map_ext_in. intros i Hi. apply in_seq in Hi.
  assert (E : length (slice (4 * i) 4 (zero_pad (4 * n) key)) = 4%nat) by (apply length_slice; rewrite length_zero_pad by exact L; lia).
  rewrite <- E at 1. apply be_bytes_val. apply (words_slice 8). now apply bytes_zero_pad.
Qed.
Definition rj_good (nb : nat) (r : N) (key : list N) (s : rijndael) : Prop :=
  rj_r s = r /\ regs 32 (nb * (N.to_nat r + 1)) (rj_k s) /\ regs 32 (nb * (N.to_nat r + 1)) (rj_dk s) /\ dec_keys (nb := nb) (N.to_nat r) (rj_k s) (rj_dk s) /\
  ((nb * (N.to_nat r + 1) <= 52 * rj_n key)%nat -> cols (rj_k s) = expand (rj_n key) (nb * (N.to_nat r + 1)) (zero_pad (4 * rj_n key) key)).
Lemma setup_ok nb r key : (4 <= nb)%nat -> 1 <= r -> key_ok 32 key -> (nb * (N.to_nat r + 1) <= 53 * rj_n key)%nat ->
  exists s, rj_setup nb r key = Ok s /\ rj_good nb r key s.
Proof.
  intros Hb Hr Hk Hl. destruct (rj_n_bounds key Hk) as [Hn Hn4]. destruct Hk as [B Hk]. unfold rj_setup. fold (rj_n key).
  replace (S (N.to_nat r) * nb)%nat with (nb * (N.to_nat r + 1))%nat by lia.
  destruct (key32b_ok key (rj_n key) B) as [L0 W0].
  assert (R : (1 <= N.to_nat r)%nat) by lia.
  destruct (expand_ok (rj_n key) (nb * (N.to_nat r + 1)) (key32b key (rj_n key)) ltac:(lia) ltac:(nia) Hl (conj L0 W0)) as (k & E & K & C).
  rewrite E. cbn [bind]. cbv zeta. eexists. split; [reflexivity|]. unfold rj_good. cbn [rj_r rj_k rj_dk].
  destruct (deckeys_ok nb (N.to_nat r) k ltac:(lia) R K) as [D1 D2]. unfold rj_deckeys in D1, D2.
  replace (S (N.to_nat r) * nb)%nat with (nb * (N.to_nat r + 1))%nat in D1, D2 by lia.
  split; [reflexivity|]. split; [exact K|]. split; [exact D1|]. split; [exact D2|].
  intros H52. rewrite (C H52). unfold expand. f_equal. now apply key_cols.
Qed.
Lemma create_ok nb min sh r key : (4 <= nb)%nat -> 1 <= rj_rounds min r key -> key_ok 32 key -> 2 ^ sh = 8 * N.of_nat nb -> sh <= 32 ->
  (rj_rounds min r key + 1) * 2 ^ sh < 2 ^ 32 -> (nb * (N.to_nat (rj_rounds min r key) + 1) <= 53 * rj_n key)%nat ->
  exists s, rj_create nb min sh r key = Ok s /\ rj_good nb (rj_rounds min r key) key s.
Proof.
  intros Hb Hr Hk Hs Hs32 Hf Hl. destruct (setup_ok nb _ key Hb Hr Hk Hl) as (s & E & G). exists s. split; [|exact G].
  unfold rj_create. assert (KL : key_len_ok rj_maxkey key = true).
  { unfold key_len_ok, rj_maxkey. destruct Hk as [_ Hk]. apply andb_true_intro. split; [apply Nat.ltb_lt|apply Nat.leb_le]; lia. }
  rewrite KL. cbn [assert_]. cbv zeta. set (R := rj_rounds min r key) in *. rewrite E.
  assert (P : 0 < 2 ^ sh) by (apply N.neq_0_lt_0, N.pow_nonzero; discriminate).
  unfold wadd, wshl. rewrite !mask_mod, N.shiftl_mul_pow2.
  assert (R1 : R + 1 < 2 ^ 32) by nia. rewrite (N.mod_small (R + 1)) by exact R1. rewrite (N.mod_small _ _ Hf).
  unfold fits. rewrite Hs. replace ((R + 1) * (8 * N.of_nat nb)) with (2 * N.of_nat nb * (R + 1) * 4) by lia. rewrite N.div_mul by discriminate.
  now rewrite N.leb_refl.
Qed.
Lemma rounds_pos min r key : 1 <= min -> 1 <= rj_rounds min r key.
Proof. intros H. unfold rj_rounds. destruct (N.eqb_spec r 0) as [->|D]; [|lia]. cbv zeta. destruct (N.ltb_spec (6 + N.of_nat ((length key + 3) / 4)) min); lia. Qed.

Lemma shape128 : shape 4 rj_ix128 rj_dx128. Proof. left. repeat split. Qed.
Lemma shape256 : shape 8 rj_ix256 rj_dx256. Proof. right. repeat split. Qed.

Lemma rijndael128_perm r key : key_ok 32 key -> (rj_rounds 10 r key + 1) * 2 ^ 5 < 2 ^ 32 -> (4 * (N.to_nat (rj_rounds 10 r key) + 1) <= 53 * rj_n key)%nat ->
  exists s, rijndael128_create r key = Ok s /\ permutation 16 (rijndael128_encrypt s) (rijndael128_decrypt s).
Proof.
  intros Hk Hf Hl. pose proof (rounds_pos 10 r key ltac:(discriminate)) as R.
  destruct (create_ok 4 10 5 r key ltac:(lia) R Hk eq_refl ltac:(discriminate) Hf Hl) as (s & E & Er & K & DK & Q & _).
  exists s. split; [exact E|]. unfold rijndael128_encrypt, rijndael128_decrypt. rewrite Er.
  apply (crypt_perm shape128 (rj_rounds 10 r key) (rj_k s) (rj_dk s)); [lia|exact K|exact DK|exact Q].
Qed.
Lemma rijndael256_perm r key : key_ok 32 key -> (rj_rounds 14 r key + 1) * 2 ^ 6 < 2 ^ 32 -> (8 * (N.to_nat (rj_rounds 14 r key) + 1) <= 53 * rj_n key)%nat ->
  exists s, rijndael256_create r key = Ok s /\ permutation 32 (rijndael256_encrypt s) (rijndael256_decrypt s).
Proof.
  intros Hk Hf Hl. pose proof (rounds_pos 14 r key ltac:(discriminate)) as R.
  destruct (create_ok 8 14 6 r key ltac:(lia) R Hk eq_refl ltac:(discriminate) Hf Hl) as (s & E & Er & K & DK & Q & _).
  exists s. split; [exact E|]. unfold rijndael256_encrypt, rijndael256_decrypt. rewrite Er.
  apply (crypt_perm shape256 (rj_rounds 14 r key) (rj_k s) (rj_dk s)); [lia|exact K|exact DK|exact Q].
Qed.

(** the code computes the published function *)
Lemma rijndael128_spec r key : let R := rj_rounds 10 r key in key_ok 32 key -> (R + 1) * 2 ^ 5 < 2 ^ 32 -> (4 * (N.to_nat R + 1) <= 52 * rj_n key)%nat ->
  exists s, rijndael128_create r key = Ok s /\
    (forall pt, blk 16 pt -> rijndael128_encrypt s pt = Ok (rijndael_enc 4 (rj_n key) (N.to_nat R) (zero_pad (4 * rj_n key) key) pt)) /\
    (forall ct, blk 16 ct -> rijndael128_decrypt s ct = Ok (rijndael_dec 4 (rj_n key) (N.to_nat R) (zero_pad (4 * rj_n key) key) ct)).
Proof.
  intros R Hk Hf Hl. pose proof (rounds_pos 10 r key ltac:(discriminate)) as R1.
  destruct (create_ok 4 10 5 r key ltac:(lia) R1 Hk eq_refl ltac:(discriminate) Hf ltac:(fold R; lia)) as (s & E & Er & K & DK & Q & C).
  fold R in R1, Er, K, DK, Q, C. specialize (C Hl).
  exists s. split; [exact E|]. unfold rijndael128_encrypt, rijndael128_decrypt, rijndael_enc, rijndael_dec. rewrite Er, <- C. split; intros x Hx.
  - apply (encrypt_cipher shape128 R (rj_k s) x); [lia|exact K|exact Hx].
  - apply (decrypt_cipher shape128 R (rj_k s) (rj_dk s) x); [lia|exact K|exact DK|exact Q|exact Hx].
Qed.
Lemma rijndael256_spec r key : let R := rj_rounds 14 r key in key_ok 32 key -> (R + 1) * 2 ^ 6 < 2 ^ 32 -> (8 * (N.to_nat R + 1) <= 52 * rj_n key)%nat ->
  exists s, rijndael256_create r key = Ok s /\
    (forall pt, blk 32 pt -> rijndael256_encrypt s pt = Ok (rijndael_enc 8 (rj_n key) (N.to_nat R) (zero_pad (4 * rj_n key) key) pt)) /\
    (forall ct, blk 32 ct -> rijndael256_decrypt s ct = Ok (rijndael_dec 8 (rj_n key) (N.to_nat R) (zero_pad (4 * rj_n key) key) ct)).
Proof.
  intros R Hk Hf Hl. pose proof (rounds_pos 14 r key ltac:(discriminate)) as R1.
  destruct (create_ok 8 14 6 r key ltac:(lia) R1 Hk eq_refl ltac:(discriminate) Hf ltac:(fold R; lia)) as (s & E & Er & K & DK & Q & C).
  fold R in R1, Er, K, DK, Q, C. specialize (C Hl).
  exists s. split; [exact E|]. unfold rijndael256_encrypt, rijndael256_decrypt, rijndael_enc, rijndael_dec. rewrite Er, <- C. split; intros x Hx.
  - apply (encrypt_cipher shape256 R (rj_k s) x); [lia|exact K|exact Hx].
  - apply (decrypt_cipher shape256 R (rj_k s) (rj_dk s) x); [lia|exact K|exact DK|exact Q|exact Hx].
Qed.
(** AES *)
Lemma aes_spec key : bytes_ok key -> length key = 16%nat \/ length key = 24%nat \/ length key = 32%nat ->
  exists s, rijndael128_create 0 key = Ok s /\
    (forall pt, blk 16 pt -> rijndael128_encrypt s pt = Ok (aes_enc key pt)) /\
    (forall ct, blk 16 ct -> rijndael128_decrypt s ct = Ok (aes_dec key ct)).
Proof.
  intros B L. assert (Hk : key_ok 32 key) by (split; [exact B|lia]). unfold aes_enc, aes_dec.
  pose proof (rijndael128_spec 0 key) as H. cbv zeta in H |- *. unfold rj_rounds, rj_n in H. cbn [N.eqb] in H.
  destruct L as [L|[L|L]]; rewrite L in H |- *; (destruct (H Hk) as (s & E & H1 & H2); [reflexivity|vm_compute; lia|]);
    exists s; (split; [exact E|]); rewrite zero_pad_full in H1, H2 by (rewrite L; vm_compute; lia); (split; [exact H1|exact H2]).
Qed.
(** default rounds *)
Lemma rijndael128_default_ok key : key_ok 32 key -> (rj_rounds 10 0 key + 1) * 2 ^ 5 < 2 ^ 32 /\ (4 * (N.to_nat (rj_rounds 10 0 key) + 1) <= 52 * rj_n key)%nat.
Proof.
  intros Hk. destruct (rj_n_bounds key Hk) as [[N1 N8] _]. unfold rj_rounds. change (0 =? 0) with true. cbv iota zeta. fold (rj_n key).
  destruct (N.ltb_spec (6 + N.of_nat (rj_n key)) 10) as [G|G]; change (2 ^ 5) with 32; change (2 ^ 32) with 4294967296; [change (N.to_nat 10) with 10%nat|rewrite N2Nat.inj_add, Nat2N.id; change (N.to_nat 6) with 6%nat]; lia.
Qed.
Lemma rijndael256_default_ok key : key_ok 32 key -> (8 < length key)%nat -> (rj_rounds 14 0 key + 1) * 2 ^ 6 < 2 ^ 32 /\ (8 * (N.to_nat (rj_rounds 14 0 key) + 1) <= 52 * rj_n key)%nat.
Proof.
  intros Hk H9. destruct (rj_n_bounds key Hk) as [[N1 N8] N4]. unfold rj_rounds. change (0 =? 0) with true. cbv iota zeta. fold (rj_n key).
  assert (N3 : (3 <= rj_n key)%nat) by lia.
  destruct (N.ltb_spec (6 + N.of_nat (rj_n key)) 14) as [G|G]; change (2 ^ 6) with 64; change (2 ^ 32) with 4294967296; [change (N.to_nat 14) with 14%nat|rewrite N2Nat.inj_add, Nat2N.id; change (N.to_nat 6) with 6%nat]; lia.
Qed.

(** ** Too many words for the round constants *)
Lemma expand_oob n len k0 : (0 < n)%nat -> (53 * n < len)%nat -> regs 32 n k0 -> rj_expand n len k0 = Err OobRead.
Proof.
  intros Hn Hl R. destruct (expand_ok n (53 * n) k0 Hn ltac:(lia) ltac:(lia) R) as (k & E & _). unfold rj_expand in E |- *.
  replace ((53 * n - 1) / n)%nat with 52%nat in E by (apply (Nat.div_unique _ n 52 (n - 1)); lia).
  assert (D : (53 <= (len - 1) / n)%nat) by (apply Nat.div_le_lower_bound; lia).
  replace ((len - 1) / n)%nat with (52 + S ((len - 1) / n - 53))%nat by lia. rewrite mfor_app.
  rewrite (mfor_ext 52 0 _ (fun x k => mfor n 0 (fun i k => if (n * S x + i <? 53 * n)%nat then let* w := rj_word n x i k in Ok (k ++ [w]) else Ok k) k)).
  - rewrite E. cbn [bind mfor]. destruct n as [|n]; [lia|]. cbn [mfor Nat.add].
    destruct (Nat.ltb_spec (S n * 53 + 0) len) as [G|G]; [|lia]. unfold rj_word at 1. cbn [Nat.eqb]. rewrite (get_err rj_rcon 52) by (rewrite rcon_length; lia). reflexivity.
  - intros x y Hx. apply mfor_ext. intros i z Hi. destruct (Nat.ltb_spec (n * S x + i) len), (Nat.ltb_spec (n * S x + i) (53 * n)); try reflexivity; nia.
Qed.
Lemma rijndael256_short key : key_ok 32 key -> (length key <= 8)%nat -> rijndael256_create 0 key = Err OobRead.
Proof.
  intros Hk H8. destruct (rj_n_bounds key Hk) as [[N1 N8] N4]. unfold rijndael256_create, rj_create.
  assert (KL : key_len_ok rj_maxkey key = true).
  { unfold key_len_ok, rj_maxkey. destruct Hk as [_ Hk]. apply andb_true_intro. split; [apply Nat.ltb_lt|apply Nat.leb_le]; lia. }
  rewrite KL. cbn [assert_]. cbv zeta.
  assert (N2 : (rj_n key <= 2)%nat) by (unfold rj_n; apply Nat.lt_succ_r, Nat.div_lt_upper_bound; lia).
  assert (ER : rj_rounds 14 0 key = 14).
  { unfold rj_rounds. change (0 =? 0) with true. cbv iota zeta. fold (rj_n key). destruct (N.ltb_spec (6 + N.of_nat (rj_n key)) 14); [reflexivity|lia]. }
  rewrite ER. change (fits _ _ ?x) with x. unfold rj_setup. fold (rj_n key). rewrite expand_oob; [reflexivity|lia| |].
  - change (N.to_nat 14) with 14%nat. lia.
  - destruct (key32b_ok key (rj_n key) (proj1 Hk)) as [L0 W0]. now split.
Qed.
(** The 52nd constant is missing. *)
Lemma rijndael128_rcon : exists s, rijndael128_create 52 (repeat 0 16) = Ok s /\
  rijndael128_encrypt s (repeat 0 16) <> Ok (rijndael_enc 4 4 52 (repeat 0 16) (repeat 0 16)).
Proof. eexists. split; [vm_compute; reflexivity|]. vm_compute. discriminate. Qed.
