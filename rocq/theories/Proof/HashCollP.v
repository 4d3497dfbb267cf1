(** Two different messages with the same digest give a collision of the compression function: SHA-2, SHA-1, MD5, Tiger, Whirlpool. *)
From Coq Require Import String NArith Arith List Bool Lia.
From Verif Require Import Lib.Hex Lib.Word Lib.Res Lib.Bytes Lib.WordSpec Lib.MemLemmas Lib.Lists Lib.WordsP Model.HashApi Model.Md Model.Sha1 Model.Md5 Model.Sha2
  Model.Tiger Model.Whirlpool Spec.Words Spec.Modes Spec.Hash Spec.Collision Spec.Sha1 Spec.Md5 Spec.Sha2 Spec.Tiger Spec.Whirlpool
  Proof.MdP Proof.MdCollP Proof.Sha1P Proof.Sha2P Proof.TigerP Proof.WhirlpoolP.
Import ListNotations.
Local Open Scope N_scope.

Lemma all_collision d r n (okm : nat -> Prop) bs lb first enc c (hok : list N -> Prop) ser iv H m m' :
  (0 < lb < bs)%nat -> first < 256 -> (forall x, blk lb (enc lb x)) ->
  (forall x y, x < 256 ^ N.of_nat lb -> y < 256 ^ N.of_nat lb -> enc lb x = enc lb y -> x = y) ->
  (forall h b, hok h -> blk bs b -> hok (c h b)) -> hok iv ->
  (forall l, okm l -> 8 * N.of_nat l < 256 ^ N.of_nat lb) ->
  (forall l, H l = ser (iterate bs c iv (md_pad bs lb first enc l))) ->
  (forall h, hok h -> length (ser h) = n) ->
  (forall h h', hok h -> hok h' -> ser h = ser h' -> h = h') ->
  computes d r [] n n okm H ->
  bytes_ok m -> bytes_ok m' -> okm (length m) -> okm (length m') -> m <> m' ->
  hash_all d r [] m n = hash_all d r [] m' n -> collision_in c iv (blocks bs (md_pad bs lb first enc m)) (blocks bs (md_pad bs lb first enc m')).
Proof.
  intros Hb Hf He Hi Hc Hiv Hlen HH Hs Hsi C Bm Bm' Om Om' Ne E.
  assert (A : forall l, bytes_ok l -> okm (length l) -> hash_all d r [] l n = Ok (H l)).
  { intros l Bl Ol. specialize (C [l]). cbn [concat] in C. rewrite app_nil_r in C. destruct (C (Forall_cons _ Bl (Forall_nil _)) Ol) as [_ ->].
    f_equal. apply firstn_all2. rewrite HH, Hs; [lia|]. apply (fold_ok bs c hok Hc); [exact Hiv|]. apply (blocks_blk bs lb first Hb Hf). now apply pad_bytes. }
  rewrite !A in E by assumption. assert (E' : H m = H m') by congruence. rewrite !HH in E'.
  apply (hash_collision bs lb first enc Hb Hf He Hi c iv m m'); try (now apply Hlen); [exact Ne|].
  apply Hsi; [| |exact E']; apply (fold_ok bs c hok Hc); try exact Hiv; apply (blocks_blk bs lb first Hb Hf); now apply pad_bytes.
Qed.
Lemma len256 k l b : b = 256 ^ N.of_nat k / 8 -> (0 < k)%nat -> N.of_nat l < b -> 8 * N.of_nat l < 256 ^ N.of_nat k.
Proof.
  intros -> Hk H. assert (E := N.mul_div_le (256 ^ N.of_nat k) 8 ltac:(discriminate)). lia.
Qed.
Lemma words_bytes w k l : w = 8 * N.of_nat k -> words_ok w l -> Forall (fun x => x < 256 ^ N.of_nat k) l.
Proof. intros -> H. unfold words_ok, inw in H. rewrite N.pow_mul_r in H. exact H. Qed.
Lemma be_string_inj w k n l l' : w = 8 * N.of_nat k -> (length l = n /\ words_ok w l) -> (length l' = n /\ words_ok w l') -> be_string k l = be_string k l' -> l = l'.
Proof.
  intros Hw [Ll Wl] [Ll' Wl'] E. apply (string_inj k be_bytes); [intros; apply length_be_bytes|apply be_bytes_inj|now apply (words_bytes w)|now apply (words_bytes w)|congruence|exact E].
Qed.
Lemma le_string_inj w k n l l' : w = 8 * N.of_nat k -> (length l = n /\ words_ok w l) -> (length l' = n /\ words_ok w l') -> le_string k l = le_string k l' -> l = l'.
Proof.
  intros Hw [Ll Wl] [Ll' Wl'] E. apply (string_inj k le_bytes); [intros; apply length_le_bytes|apply le_bytes_inj|now apply (words_bytes w)|now apply (words_bytes w)|congruence|exact E].
Qed.
Definition below (b : N) (len : nat) : Prop := N.of_nat len < b.

Lemma siv32_32 : siv32 32 = iv256. Proof. unfold siv32. generalize iv256 iv224. intros. reflexivity. Qed.
Lemma siv64_64 : siv64 64 = iv512. Proof. unfold siv64. generalize iv512 iv384. intros. reflexivity. Qed.
Lemma sha2_256_collision r m m' : (rounds32 r <= 128)%nat -> bytes_ok m -> bytes_ok m' -> below (2 ^ 61) (length m) -> below (2 ^ 61) (length m') -> m <> m' ->
  hash_all hash_sha2_256 r [] m 32 = hash_all hash_sha2_256 r [] m' 32 -> 
    collision_in (sha2_compress f256 (rounds32 r)) iv256 (blocks 64 (md_pad 64 8 0x80 be_bytes m)) (blocks 64 (md_pad 64 8 0x80 be_bytes m')).
Proof.
  intros Hr. apply (all_collision hash_sha2_256 r 32 (below (2 ^ 61)) 64 8 0x80 be_bytes _ (words8 32) (be_string 4) iv256 (sha2_32 (rounds32 r) iv256)); try lia; try reflexivity.
  - intros x. apply blk_be_bytes.
  - apply be_bytes_inj.
  - intros h b [Hh _] _. now apply (compress_ok f256).
  - rewrite <- siv32_32. exact (siv32_ok 32).
  - intros l. apply len256; [reflexivity|lia].
  - intros h [Hh _]. rewrite length_be_string, Hh. reflexivity.
  - intros h h'. now apply (be_string_inj 32 4 8).
  - rewrite <- siv32_32. exact (sha2_256_computes r 32 ltac:(lia) Hr).
Qed.
Lemma sha2_512_collision r m m' : (rounds64 r <= 160)%nat -> bytes_ok m -> bytes_ok m' -> below (2 ^ 125) (length m) -> below (2 ^ 125) (length m') -> m <> m' ->
  hash_all hash_sha2_512 r [] m 64 = hash_all hash_sha2_512 r [] m' 64 -> 
    collision_in (sha2_compress f512 (rounds64 r)) iv512 (blocks 128 (md_pad 128 16 0x80 be_bytes m)) (blocks 128 (md_pad 128 16 0x80 be_bytes m')).
Proof.
  intros Hr. apply (all_collision hash_sha2_512 r 64 (below (2 ^ 125)) 128 16 0x80 be_bytes _ (words8 64) (be_string 8) iv512 (sha2_64 (rounds64 r) iv512)); try lia; try reflexivity.
  - intros x. apply blk_be_bytes.
  - apply be_bytes_inj.
  - intros h b [Hh _] _. now apply (compress_ok f512).
  - rewrite <- siv64_64. exact (siv64_ok 64).
  - intros l. apply len256; [reflexivity|lia].
  - intros h [Hh _]. rewrite length_be_string, Hh. reflexivity.
  - intros h h'. now apply (be_string_inj 64 8 8).
  - rewrite <- siv64_64. exact (sha2_512_computes r 64 ltac:(lia) Hr).
Qed.
Lemma sha1_collision m m' : bytes_ok m -> bytes_ok m' -> below (2 ^ 61) (length m) -> below (2 ^ 61) (length m') -> m <> m' ->
  hash_all hash_sha1 0 [] m 20 = hash_all hash_sha1 0 [] m' 20 -> 
    collision_in sha1_compress sha1_h0 (blocks 64 (md_pad 64 8 0x80 be_bytes m)) (blocks 64 (md_pad 64 8 0x80 be_bytes m')).
Proof.
  apply (all_collision hash_sha1 0 20 (below (2 ^ 61)) 64 8 0x80 be_bytes _ words5 (be_string 4) sha1_h0 sha1); try lia; try reflexivity.
  - intros x. apply blk_be_bytes.
  - apply be_bytes_inj.
  - intros h b Hh Hb. now apply process1_eq.
  - split; [reflexivity|]. repeat (constructor; [reflexivity|]). constructor.
  - intros l. apply len256; [reflexivity|lia].
  - intros h [Hh _]. rewrite length_be_string, Hh. reflexivity.
  - intros h h'. now apply (be_string_inj 32 4 5).
  - apply sha1_computes. lia.
Qed.
Lemma md5_collision r m m' : bytes_ok m -> bytes_ok m' -> below (2 ^ 61) (length m) -> below (2 ^ 61) (length m') -> m <> m' ->
  hash_all hash_md5 r [] m 16 = hash_all hash_md5 r [] m' 16 -> 
    collision_in md5_compress md5_h0 (blocks 64 (md_pad 64 8 0x80 le_bytes m)) (blocks 64 (md_pad 64 8 0x80 le_bytes m')).
Proof.
  apply (all_collision hash_md5 r 16 (below (2 ^ 61)) 64 8 0x80 le_bytes _ words4 (le_string 4) md5_h0 md5); try lia; try reflexivity.
  - intros x. apply blk_le_bytes.
  - apply le_bytes_inj.
  - intros h b Hh Hb. now apply process5_eq.
  - split; [reflexivity|]. repeat (constructor; [reflexivity|]). constructor.
  - intros l. apply len256; [reflexivity|lia].
  - intros h [Hh _]. rewrite length_le_string, Hh. reflexivity.
  - intros h h'. now apply (le_string_inj 32 4 4).
  - apply md5_computes. lia.
Qed.

(** Tiger: the chaining value is three 64 bit words *)
Definition words3 (h : list N) : Prop := length h = 3%nat /\ words_ok 64 h.
Definition ok3 (v : N * N * N) : Prop := let '(a, b, c) := v in inw 64 a /\ inw 64 b /\ inw 64 c.
Lemma mod_inw x : inw 64 (x mod 2 ^ 64).
Proof. apply N.mod_upper_bound. discriminate. Qed.
Lemma rounds_ok3 mul xs v : words_ok 64 xs -> ok3 v -> ok3 (tiger_rounds mul xs v).
Proof.
  intros Hx. revert v. induction Hx as [|x t Hx Ht IH]; intros [[a b] c] Hv; [exact Hv|]. cbn [tiger_rounds]. unfold tiger_round. apply IH.
  destruct Hv as (Ha & Hb & Hc). repeat split; try apply mod_inw. now apply inw_lxor.
Qed.
Lemma pass_ok3 mul xs v : words_ok 64 xs -> ok3 v -> ok3 (tiger_pass mul xs v).
Proof.
  intros Hx Hv. unfold tiger_pass. pose proof (rounds_ok3 mul xs v Hx Hv) as R. destruct (tiger_rounds mul xs v) as [[c a] b]. destruct R as (? & ? & ?). now repeat split.
Qed.
Lemma words_in w xs j : words_ok w xs -> inw w (nth j xs 0).
Proof.
  intros H. destruct (Nat.lt_ge_cases j (length xs)) as [L|L]; [exact (proj1 (Forall_nth _ _) H j 0 L)|].
  rewrite nth_overflow by exact L. unfold inw. apply N.neq_0_lt_0. now apply N.pow_nonzero.
Qed.
Lemma schedule_words xs : words_ok 64 xs -> words_ok 64 (tiger_schedule xs).
Proof.
  intros Hx. assert (X := fun j => words_in 64 xs j Hx). unfold tiger_schedule.
  repeat match goal with |- context[nth ?j xs 0] => let x := fresh "x" in generalize (X j); generalize (nth j xs 0); intros x ? end.
  assert (forall p q, inw 64 (minus_w 64 p q)) as S1 by (intros; apply mod_inw).
  assert (forall p q, inw 64 (plus_w 64 p q)) as S2 by (intros; apply mod_inw).
  assert (forall p q, inw 64 p -> inw 64 q -> inw 64 (N.lxor p q)) as S3 by (intros; now apply inw_lxor).
  cbv zeta. repeat (constructor; [auto 12|]). constructor.
Qed.
Lemma passes_ok3 n no xs v : words_ok 64 xs -> ok3 v -> ok3 (tiger_passes n no xs v).
Proof.
  revert no xs v. induction n as [|n IH]; intros no xs v Hx Hv; [exact Hv|]. cbn [tiger_passes].
  set (xs' := if (no =? 0)%nat then xs else tiger_schedule xs).
  assert (Hx' : words_ok 64 xs') by (unfold xs'; destruct (no =? 0)%nat; [exact Hx|now apply schedule_words]). clearbody xs'.
  set (mul := if (no =? 0)%nat then 5 else _). pose proof (pass_ok3 mul xs' v Hx' Hv) as P. clearbody mul.
  destruct (tiger_pass mul xs' v) as [[a b] c]. destruct P as (? & ? & ?). apply IH; [exact Hx'|]. now repeat split.
Qed.
Lemma tiger_words n h m : words3 h -> blk 64 m -> words3 (tiger_compress n h m).
Proof.
  intros [Lh Wh] [_ Bm]. unfold tiger_compress.
  assert (P := passes_ok3 n 0 (le_words 8 8 m) (nth 0 h 0, nth 1 h 0, nth 2 h 0) (le_words_inw 8 64 8 m Bm eq_refl)).
  destruct (tiger_passes n 0 _ _) as [[a b] c]. destruct P as (Pa & _ & _); [repeat split; now apply words_in|].
  split; [reflexivity|]. constructor; [apply inw_lxor; [exact Pa|now apply words_in]|]. constructor; [apply mod_inw|]. constructor; [apply mod_inw|constructor].
Qed.
Lemma tiger_collision r m m' : bytes_ok m -> bytes_ok m' -> below (2 ^ 61) (length m) -> below (2 ^ 61) (length m') -> m <> m' ->
  hash_all hash_tiger r [] m 24 = hash_all hash_tiger r [] m' 24 -> 
    collision_in (tiger_compress (passes_of r)) tiger_h0 (blocks 64 (md_pad 64 8 0x01 le_bytes m)) (blocks 64 (md_pad 64 8 0x01 le_bytes m')).
Proof.
  apply (all_collision hash_tiger r 24 (below (2 ^ 61)) 64 8 0x01 le_bytes _ words3 (le_string 8) tiger_h0 (tiger (passes_of r))); try lia; try reflexivity.
  - intros x. apply blk_le_bytes.
  - apply le_bytes_inj.
  - intros h b. apply tiger_words.
  - split; [reflexivity|]. repeat (constructor; [reflexivity|]). constructor.
  - intros l. apply len256; [reflexivity|lia].
  - intros h [Hh _]. rewrite length_le_string, Hh. reflexivity.
  - intros h h'. now apply (le_string_inj 64 8 3).
  - apply tiger_computes. lia.
Qed.

(** Whirlpool: the chaining value is a block of 64 bytes *)
Lemma whirlpool_blk n h m : (n <= 10)%nat -> blk 64 h -> blk 64 m -> blk 64 (whirlpool_compress n h m).
Proof.
  intros Hn Hh Hm. rewrite <- (be_string_words h Hh). assert (N : N.to_nat (N.of_nat n) = n) by apply Nat2N.id.
  destruct (process_eq (N.of_nat n) (be_words 8 8 h) m) as (_ & L & S); [lia|apply length_be_words|exact Hm|]. rewrite N in S. rewrite <- S.
  split; [now rewrite length_be_string, L|]. apply Forall_flat_map. apply Forall_forall. intros x _. apply bytes_be_bytes.
Qed.
Lemma whirlpool_collision r m m' : r < 10 -> bytes_ok m -> bytes_ok m' -> below (2 ^ 253) (length m) -> below (2 ^ 253) (length m') -> m <> m' ->
  hash_all hash_whirlpool r [] m 64 = hash_all hash_whirlpool r [] m' 64 -> 
    collision_in (whirlpool_compress (rounds_w r)) (repeat 0 64) (blocks 64 (md_pad 64 32 0x80 be_bytes m)) (blocks 64 (md_pad 64 32 0x80 be_bytes m')).
Proof.
  intros Hr.
  assert (Hr' : (rounds_w r <= 10)%nat) by (unfold rounds_w; destruct (r =? 0); lia).
  apply (all_collision hash_whirlpool r 64 (below (2 ^ 253)) 64 32 0x80 be_bytes _ (blk 64) (fun h => h) (repeat 0 64) (whirlpool (rounds_w r))); try lia; try reflexivity.
  - intros x. apply blk_be_bytes.
  - apply be_bytes_inj.
  - intros h b Hh Hb. now apply whirlpool_blk.
  - split; [reflexivity|]. apply Forall_forall. intros x Hx. apply repeat_spec in Hx. now subst.
  - intros l. apply len256; [reflexivity|lia].
  - intros h [Hh _]. exact Hh.
  - intros h h' _ _ E. exact E.
  - apply whirlpool_computes; [exact Hr|lia].
Qed.

Lemma both_pad_inj bs lb first m m' : (0 < lb < bs)%nat -> first < 256 ->
  8 * N.of_nat (length m) < 256 ^ N.of_nat lb -> 8 * N.of_nat (length m') < 256 ^ N.of_nat lb ->
  blocks bs (md_pad bs lb first be_bytes m) = blocks bs (md_pad bs lb first be_bytes m') \/
  blocks bs (md_pad bs lb first le_bytes m) = blocks bs (md_pad bs lb first le_bytes m') -> m = m'.
Proof.
  intros Hb Hf Hm Hm' [E|E].
  - apply (pad_blocks_inj bs lb first be_bytes Hb Hf (blk_be_bytes lb) (be_bytes_inj lb) m m' Hm Hm' E).
  - apply (pad_blocks_inj bs lb first le_bytes Hb Hf (blk_le_bytes lb) (le_bytes_inj lb) m m' Hm Hm' E).
Qed.
(** the pair of Marc Stevens, "Single-block collision attack on MD5" (2012) *)
Definition md5_stevens1 : list N := Eval vm_compute in hex "4dc968ff0ee35c209572d4777b721587d36fa7b21bdc56b74a3dc0783e7b9518afbfa200a8284bf36e8e4b55b35f427593d849676da0d1555d8360fb5f07fea2".
Definition md5_stevens2 : list N := Eval vm_compute in hex "4dc968ff0ee35c209572d4777b721587d36fa7b21bdc56b74a3dc0783e7b9518afbfa202a8284bf36e8e4b55b35f427593d849676da0d1d55d8360fb5f07fea2".
