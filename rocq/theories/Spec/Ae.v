(** Using an object for authenticated encryption: a sequence of calls that encrypt (or decrypt) a piece of the message or take a
    piece of the header, in any order and with any buffers.  And EAX (Bellare, Rogaway, Wagner: The EAX mode of operation, 2004). *)
From Coq Require Import NArith Arith List Bool.
From Verif Require Import Lib.Res Lib.Bytes Model.Mem Spec.Modes Spec.CbcMac Spec.Mac Model.StreamApi Model.MacApi Model.Eax.
Import ListNotations.
Local Open Scope nat_scope.

(** [op] encrypts or decrypts, [head] takes a piece of the header; [hdr], [inp] and [out] are the whole header, input and output. *)
Inductive ae_session {S} (op : S -> mem -> nat -> nat -> nat -> res (S * mem)) (head : S -> list N -> res S) : S -> list N -> list N -> S -> list N -> Prop :=
| aes_nil s : ae_session op head s [] [] s []
| aes_call s m src dst len s1 m1 hdr inp s2 out :
    buffers_ok src dst len -> bytes_ok (rd m src len) -> op s m src dst len = Ok (s1, m1) ->
    ae_session op head s1 hdr inp s2 out -> ae_session op head s hdr (rd m src len ++ inp) s2 (rd m1 dst len ++ out)
| aes_header s l s1 hdr inp s2 out :
    bytes_ok l -> head s l = Ok s1 -> ae_session op head s1 hdr inp s2 out -> ae_session op head s (l ++ hdr) inp s2 out.
(** every further call works, for pieces of the message and of the header of the lengths [okc], [okh] *)
Definition ae_safe {S} (op : S -> mem -> nat -> nat -> nat -> res (S * mem)) (head : S -> list N -> res S) (mult : nat) (okc okh : nat -> Prop) (s : S) : Prop :=
  (forall m src dst len, len mod mult = 0 -> okc len -> buffers_ok src dst len -> bytes_ok (rd m src len) ->
    exists s' m', op s m src dst len = Ok (s', m') /\ frame m m' dst len) /\
  (forall l, bytes_ok l -> okh (length l) -> exists s', head s l = Ok s').
(** the tags of all accepted lengths [n] are [T n], and verification accepts exactly these *)
Definition ae_tags (d : ae) (s : ae_st d) (okt : nat -> Prop) (T : nat -> list N) : Prop :=
  forall n, okt n -> (exists s', ae_tag d s n = Ok (s', T n)) /\
    forall tag, bytes_ok tag -> length tag = n -> tag <> [] -> exists s' v, ae_verify d s tag = Ok (s', v) /\ (v <> 0%N <-> tag = T n).
(** From the object [s0] on: every call works as long as the lengths of the message and of the header are accepted, decryption gives
    back the message, the tags after encryption and after decryption are [T] of the header and the ciphertext; all this
    for every way to split message, ciphertext and header into calls. *)
Definition ae_works (d : ae) (s0 : ae_st d) (okc okh okt : nat -> Prop) (T : list N -> list N -> nat -> list N) : Prop :=
  (forall hdr pt s ct, ae_session (ae_encrypt d) (ae_header d) s0 hdr pt s ct -> bytes_ok ct /\ length ct = length pt /\
    ae_safe (ae_encrypt d) (ae_header d) (ae_multof d) (fun l => okc (length pt + l)) (fun l => okh (length hdr + l)) s /\
    (okc (length ct) -> okh (length hdr) -> ae_tags d s okt (T hdr ct))) /\
  (forall hdr ct s pt, ae_session (ae_decrypt d) (ae_header d) s0 hdr ct s pt ->
    ae_safe (ae_decrypt d) (ae_header d) (ae_multof d) (fun l => okc (length ct + l)) (fun l => okh (length hdr + l)) s /\
    (okc (length ct) -> okh (length hdr) -> ae_tags d s okt (T hdr ct))) /\
  (forall hdr pt s ct s' pt', ae_session (ae_encrypt d) (ae_header d) s0 hdr pt s ct -> ae_session (ae_decrypt d) (ae_header d) s0 hdr ct s' pt' -> pt' = pt).
(** [s'] is what a caller makes of the object [s] by calls of any kind, in any order *)
Inductive ae_used (d : ae) : ae_st d -> ae_st d -> Prop :=
| use_none s : ae_used d s s
| use_enc s m src dst len s1 m1 s2 : ae_encrypt d s m src dst len = Ok (s1, m1) -> ae_used d s1 s2 -> ae_used d s s2
| use_dec s m src dst len s1 m1 s2 : ae_decrypt d s m src dst len = Ok (s1, m1) -> ae_used d s1 s2 -> ae_used d s s2
| use_hdr s l s1 s2 : ae_header d s l = Ok s1 -> ae_used d s1 s2 -> ae_used d s s2
| use_tag s n t s1 s2 : ae_tag d s n = Ok (s1, t) -> ae_used d s1 s2 -> ae_used d s s2
| use_verify s tag v s1 s2 : ae_verify d s tag = Ok (s1, v) -> ae_used d s1 s2 -> ae_used d s s2.
(** a stream cipher object that takes messages of the lengths [okn] and whose decryption undoes its encryption, however the two are split *)
Definition safe_for {S} (op : S -> mem -> nat -> nat -> nat -> res (S * mem)) (mult : nat) (okn : nat -> Prop) (s : S) : Prop :=
  forall m src dst len, len mod mult = 0 -> okn len -> buffers_ok src dst len -> bytes_ok (rd m src len) -> exists s' m', op s m src dst len = Ok (s', m') /\ frame m m' dst len.
Definition stream_works (d : stream) (okn : nat -> Prop) (s0 : sm_st d) : Prop :=
  (forall inp s out, session (sm_enc d) s0 inp s out -> safe_for (sm_enc d) (sm_multof d) (fun l => okn (length inp + l)) s /\ bytes_ok out) /\
  (forall inp s out, session (sm_dec d) s0 inp s out -> safe_for (sm_dec d) (sm_multof d) (fun l => okn (length inp + l)) s /\ bytes_ok out) /\
  (forall inp s out s' out', session (sm_enc d) s0 inp s out -> session (sm_dec d) s0 out s' out' -> out' = inp).
(** [create] and, from any object, [recreate] give such objects for every IV of [n] bytes *)
Definition stream_ready (d : stream) (r : N) (key : list N) (n : nat) (okn : nat -> Prop) : Prop :=
  forall x, bytes_ok x -> length x = n -> exists st, sm_create d r key x = Ok st /\ stream_works d okn st.
Definition stream_renews (d : stream) (s : sm_st d) (r : N) (key : list N) (n : nat) (okn : nat -> Prop) : Prop :=
  forall x, bytes_ok x -> length x = n -> exists st, sm_recreate d s r key x = Ok st /\ stream_works d okn st.
Definition stream_always (d : stream) (r : N) (key : list N) (n : nat) (okn : nat -> Prop) : Prop :=
  stream_ready d r key n okn /\ forall s, stream_renews d s r key n okn.
(** [s'] is what inputs and tags make of the MAC object [s] *)
Inductive mac_used (d : mac) : mc_st d -> mc_st d -> Prop :=
| mu_none s : mac_used d s s
| mu_input s x s1 s2 : mac_input d s x = Ok s1 -> mac_used d s1 s2 -> mac_used d s s2
| mu_tag s n t s1 s2 : mac_tag d s n = Ok (s1, t) -> mac_used d s1 s2 -> mac_used d s s2.
(** [create] gives a MAC object whose tags of the lengths [ok0] are [T0] and of the lengths [okl] are [T]; such an object, however it
    was used, gives by [recreate] one with [T] again *)
Definition mac_ready (d : mac) (r : N) (key : list N) (n : nat) (ok0 okl : list nat -> Prop) (okm : nat -> Prop) (T0 T : list N -> list N) : Prop :=
  mac_gives d (mac_create d r key n) ok0 okm T0 /\ mac_gives d (mac_create d r key n) okl okm T /\
  forall m0 m, mac_create d r key n = Ok m0 -> mac_used d m0 m -> mac_gives d (mac_recreate d m r key n) okl okm T.
(** ... and every object does *)
Definition mac_always (d : mac) (r : N) (key : list N) (n : nat) (ok0 okl : list nat -> Prop) (okm : nat -> Prop) (T0 T : list N -> list N) : Prop :=
  mac_gives d (mac_create d r key n) ok0 okm T0 /\ mac_gives d (mac_create d r key n) okl okm T /\
  forall m, mac_gives d (mac_recreate d m r key n) ok0 okm T0 /\ mac_gives d (mac_recreate d m r key n) okl okm T.
(** the object [s0] hands the message to the stream cipher object [st], whatever is done with it *)
Definition encrypts_with (d : ae) (s0 : ae_st d) (sd : stream) (st : sm_st sd) : Prop :=
  (forall hdr pt s ct, ae_session (ae_encrypt d) (ae_header d) s0 hdr pt s ct -> exists st', session (sm_enc sd) st pt st' ct) /\
  (forall hdr ct s pt, ae_session (ae_decrypt d) (ae_header d) s0 hdr ct s pt -> exists st', session (sm_dec sd) st ct st' pt).

(** EAX2 (Bellare, Rogaway, Wagner: section 3): EAX from a MAC [T] with tags of [n] bytes (prefixes in [n] bytes) and a stream cipher.
    The nonce is authenticated by [T0] (tags of other lengths may be given by another function).  The key is split in the middle,
    the first bytes for the MAC, at most [maxkey] for the stream cipher. *)
Section Eax2.
  Variables (n : nat) (T0 T : list N -> list N).
  Definition eax2_nonce (iv : list N) : list N := T0 (be_bytes n 0 ++ iv).
  Definition eax2_tag (iv hdr C : list N) (t : nat) : list N :=
    firstn t (xor_bytes (xor_bytes (eax2_nonce iv) (T (be_bytes n 2 ++ C))) (T (be_bytes n 1 ++ hdr))).
  (** the object [s0] for EAX2 with the IV [iv]: the message goes to the stream cipher that [mkst] makes from the authenticated IV *)
  Definition eax2_object (d : ae) (sd : stream) (s0 : ae_st d) (mkst : list N -> res (sm_st sd)) (iv : list N) (okn okm okt : nat -> Prop) : Prop :=
    (exists st, mkst (firstn (length iv) (eax2_nonce iv)) = Ok st /\ encrypts_with d s0 sd st) /\
    ae_works d s0 (fun l => okn l /\ okm (n + l)) (fun l => okm (n + l)) okt (eax2_tag iv).
  Definition splits_key (maxkey : N) (key mkey skey : list N) : Prop :=
    key = mkey ++ skey /\ N.of_nat (length skey) = N.min ((N.of_nat (length key) + 1) / 2) maxkey.
End Eax2.

(** EAX, section 3 and figure 4: OMAC with a prefix, on blocks of [bs] bytes *)
Section Eax.
  Variables (bs : nat) (F : list N -> list N) (R : N).
  Definition omac_k (t : N) (M : list N) : list N := cmac bs F R (be_bytes bs t ++ M).
  Definition eax_ciphertext (nonce M : list N) : list N := xor_ks (ctr_ks bs F (omac_k 0 nonce)) 0 M.
  Definition eax_tag (nonce header C : list N) : list N := xor_bytes (xor_bytes (omac_k 0 nonce) (omac_k 2 C)) (omac_k 1 header).
  (** What eax.c makes of the message instead: only as many bytes of OMAC_0(N) as the nonce has, zeros after them, and the counter of
      lib/stream/ctr.c, whose first byte does not count. *)
  Definition cut_nonce (nonce : list N) : list N := firstn (length nonce) (omac_k 0 nonce) ++ repeat 0%N (bs - length nonce).
  Definition cut_crypt (nonce M : list N) : list N := xor_ks (ks_byte bs (fun i => F (ctr_at (cut_nonce nonce) i))) 0 M.
  Definition crypts_as (d : ae) (s0 : ae_st d) (f : list N -> list N) : Prop :=
    (forall hdr pt s ct, ae_session (ae_encrypt d) (ae_header d) s0 hdr pt s ct -> ct = f pt) /\
    (forall hdr ct s pt, ae_session (ae_decrypt d) (ae_header d) s0 hdr ct s pt -> pt = f ct).
  (** the EAX object for a nonce: the tags are those of EAX, up to the length of the nonce *)
  Definition eax_object (d : ae) (s0 : ae_st d) (nonce : list N) : Prop :=
    crypts_as d s0 (cut_crypt nonce) /\
    ae_works d s0 (fun _ => True) (fun _ => True) (fun t => t <= length nonce) (fun hdr ct t => firstn t (eax_tag nonce hdr ct)).
End Eax.
