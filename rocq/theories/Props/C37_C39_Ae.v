(** C37, C38 EAX; C39 EAX2; C34 for kripto_ae_verify.
    [ae_session op head s0 hdr inp s out] (Spec/Ae.v): from the object [s0] on, calls of encrypt (or decrypt) and header in any order,
    with any buffers; [hdr], [inp], [out] are the whole header, input and output.
    [ae_works d s0 okc okh okt T]: decryption gives back what encryption got, the tags on both sides are [T] of the header and the
    ciphertext and verification accepts exactly these, and every call succeeds; for every splitting. *)
From Coq Require Import String NArith Arith List Bool.
From Verif Require Import Lib.Res Lib.Bytes Lib.Hex Spec.Words Spec.Block Spec.Cipher Spec.Arx Spec.Aes Spec.Modes Spec.CbcMac Spec.Mac Spec.Hmac Spec.Hash Spec.Hashes Spec.Keccak Spec.Ae
  Model.Mem Model.BlockApi Model.Modes Model.StreamApi Model.HashApi Model.MacApi Model.Omac Model.Hmac Model.Sha2 Model.Keccak Model.Eax Model.Ciphers
  Proof.CiphersP Proof.CbcMacP Proof.CbcMacPubP Proof.KeccakP Proof.AeP Proof.StreamsP Proof.Eax2P Proof.AePubP.
Import ListNotations.
Local Open Scope nat_scope.
Local Notation length := List.length.
Local Notation concat := List.concat.

Local Lemma made_fails {A B} (x : res A) (f : A -> res B) e : match x with Ok s => Some (match f s with Ok _ => None | Err e' => Some e' end) | Err _ => None end = Some (Some e) ->
  exists s, x = Ok s /\ f s = Err e.
Proof. destruct x as [s|]; [|discriminate]. destruct (f s) eqn:E; [discriminate|]. intros H. injection H as ->. exists s. split; [reflexivity|exact E]. Qed.

Local Lemma fails_with {A} (x : res A) e : match x with Ok _ => None | Err e' => Some e' end = Some e -> x = Err e.
Proof. destruct x; [discriminate|]. intros H. injection H as ->. reflexivity. Qed.

(** C34, kripto_ae_verify over every mode *)
Theorem C34_ae_verify d (s s' : ae_st d) t tag : ae_tag d s (length tag) = Ok (s', t) -> length t = length tag -> bytes_ok t -> bytes_ok tag -> tag <> [] ->
  exists v, ae_verify d s tag = Ok (s', v) /\ (v <> 0%N <-> tag = t).
Proof. exact (ae_verify_tag d s s' t tag). Qed.
Theorem C34_ae_empty_refuted d s : ae_verify d s [] = Err VlaZero.
Proof. reflexivity. Qed.
Print Assumptions C34_ae_verify. Print Assumptions C34_ae_empty_refuted.

(** C37 and C38, over every cipher object that works, made with any rounds.  [eax_object bs F R d s0 iv]: [ae_works] with the tags of EAX
    over the function [F] of the cipher, up to the length of the IV; and the ciphertext is [cut_crypt]. *)
Theorem C37_eax c r key b F R iv n : key_ok (bc_maxkey c) key -> bc_create c r key = Ok b -> works c b -> enc_fn c b F -> recreate_ok c b r key -> cmac_poly (bc_bs c) = Some R ->
  bytes_ok iv -> length iv <= bc_bs c -> n <= bc_bs c ->
  exists s0, ae_create (eax_desc c) r key iv n = Ok s0 /\ eax_object (bc_bs c) F R (eax_desc c) s0 iv.
Proof. exact (fun Hk Es W HF Rk HR Bi Li => eax_made c r key b F R iv Hk Es W HF Rk HR Bi Li n). Qed.
(** ... after a recreate of an object that was used in any way *)
Theorem C37_recreate c r key b F R iv r0 key0 b0 iv0 n0 s0 s n : key_ok (bc_maxkey c) key -> bc_create c r key = Ok b -> works c b -> enc_fn c b F -> recreate_ok c b r key ->
  cmac_poly (bc_bs c) = Some R -> bytes_ok iv -> length iv <= bc_bs c ->
  bc_create c r0 key0 = Ok b0 -> recreate_ok c b0 r0 key0 -> ae_create (eax_desc c) r0 key0 iv0 n0 = Ok s0 -> ae_used (eax_desc c) s0 s ->
  recreate_ok c b0 r key -> n <= bc_bs c -> exists s1, ae_recreate (eax_desc c) s r key iv n = Ok s1 /\ eax_object (bc_bs c) F R (eax_desc c) s1 iv.
Proof. exact (fun Hk Es W HF Rk HR Bi Li => eax_remade c r key b F R iv Hk Es W HF Rk HR Bi Li r0 key0 b0 iv0 n0 s0 s n). Qed.
(** With the default rounds: every cipher of [sound_ciphers], every key and IV that the interface takes. *)
Theorem C37_ciphers : Forall (fun c => forall key iv n, key_ok (bc_maxkey c) key -> bytes_ok iv -> length iv <= bc_bs c -> n <= bc_bs c ->
  exists b R s0, bc_create c 0 key = Ok b /\ works c b /\ cmac_poly (bc_bs c) = Some R /\
    ae_create (eax_desc c) 0 key iv n = Ok s0 /\ eax_object (bc_bs c) (fn (bc_enc c b)) R (eax_desc c) s0 iv) sound_ciphers.
Proof. exact eax_sound. Qed.
(** C38 over published ciphers, and AES *)
Theorem C38_published c ok E R key iv n : works_default c -> is_cipher c ok E -> self_rekey c -> cmac_poly (bc_bs c) = Some R -> key_ok (bc_maxkey c) key -> ok key ->
  bytes_ok iv -> length iv <= bc_bs c -> n <= bc_bs c ->
  exists s0, ae_create (eax_desc c) 0 key iv n = Ok s0 /\ eax_object (bc_bs c) (E key) R (eax_desc c) s0 iv.
Proof. exact (eax_published c ok E R key iv n). Qed.
Theorem C38_aes key iv n : bytes_ok key -> length key = 16 \/ length key = 24 \/ length key = 32 -> bytes_ok iv -> length iv <= 16 -> n <= 16 ->
  exists s0, ae_create (eax_desc rijndael128_desc) 0 key iv n = Ok s0 /\ eax_object 16 (aes_enc key) 0x87 (eax_desc rijndael128_desc) s0 iv.
Proof. exact (eax_aes key iv n). Qed.
(** The ciphertext is the one of EAX if the IV fills a block and the counter does not run over its last but first byte. *)
Theorem C38_ciphertext c key b F R iv M : key_ok (bc_maxkey c) key -> works c b -> enc_fn c b F -> cmac_poly (bc_bs c) = Some R -> bytes_ok iv -> length iv <= bc_bs c -> length iv = bc_bs c ->
  (be_val (skipn 1 (omac_k (bc_bs c) F R 0 iv)) + N.of_nat (length M / bc_bs c) < 256 ^ N.of_nat (bc_bs c - 1))%N ->
  cut_crypt (bc_bs c) F R iv M = eax_ciphertext (bc_bs c) F R iv M.
Proof. exact (fun Hk W HF HR Bi Li => cut_is_eax c key b F R iv Hk W HF HR Bi Li M). Qed.
Theorem C38_aes_ciphertext key iv M : bytes_ok key -> length key = 16 \/ length key = 24 \/ length key = 32 -> bytes_ok iv -> length iv = 16 ->
  (be_val (skipn 1 (omac_k 16 (aes_enc key) 0x87 0 iv)) + N.of_nat (length M / 16) < 256 ^ 15)%N ->
  cut_crypt 16 (aes_enc key) 0x87 iv M = eax_ciphertext 16 (aes_enc key) 0x87 iv M.
Proof. exact (aes_eax_ciphertext key iv M). Qed.
Print Assumptions C37_eax. Print Assumptions C37_recreate. Print Assumptions C37_ciphers. Print Assumptions C38_published. Print Assumptions C38_aes.
Print Assumptions C38_ciphertext. Print Assumptions C38_aes_ciphertext.

(** A session: encryption in two calls, the header after it, and the other way round for decryption.  The vector of test/ae/eax.c. *)
Definition ae_both (d : ae) (r : N) (key iv : list N) (n : nat) (hdr pt : list N) (k t : nat) : res (list N * list N * list N * list N) :=
  let l := length pt in
  let m := wr (fun _ => 0%N) 0 pt in
  let* s := ae_create d r key iv n in
  let* p := ae_encrypt d s m 0 1000 k in
  let* p := ae_encrypt d (fst p) (snd p) k (1000 + k) (l - k) in
  let* s := ae_header d (fst p) hdr in
  let* g := ae_tag d s t in
  let* s := ae_create d r key iv n in
  let* s := ae_header d s (firstn 1 hdr) in
  let* s := ae_header d s (skipn 1 hdr) in
  let* q := ae_decrypt d s (snd p) 1000 2000 l in
  let* h := ae_tag d (fst q) t in
  Ok (rd (snd p) 1000 l, snd g, rd (snd q) 2000 l, snd h).
Definition k16 : list N := map N.of_nat (seq 0 16).
Definition p32 : list N := map N.of_nat (seq 0 32).
Example C38_vector : ae_both (eax_desc rijndael128_desc) 0 k16 k16 16 k16 p32 16 16 =
  Ok (hex "29d878d1a3be857b6fb8c8ea5950a778331fbf2ccf33986f35e8cf121dcb30bc", hex "4fbe0338be1c8c7e1d7ae7e45b92c587", p32, hex "4fbe0338be1c8c7e1d7ae7e45b92c587").
Proof. vm_compute. reflexivity. Qed.
Example C38_spec_vector : eax_ciphertext 16 (aes_enc k16) 0x87 k16 p32 = hex "29d878d1a3be857b6fb8c8ea5950a778331fbf2ccf33986f35e8cf121dcb30bc" /\
  eax_tag 16 (aes_enc k16) 0x87 k16 k16 (hex "29d878d1a3be857b6fb8c8ea5950a778331fbf2ccf33986f35e8cf121dcb30bc") = hex "4fbe0338be1c8c7e1d7ae7e45b92c587" /\
  (be_val (skipn 1 (omac_k 16 (aes_enc k16) 0x87 0 k16)) + N.of_nat (length p32 / 16) <? 256 ^ 15)%N = true.
Proof. split; [vm_compute; reflexivity|]. split; vm_compute; reflexivity. Qed.
Example C37_case : ae_both (eax_desc tea_desc) 0 [1; 2; 3]%N [4; 5; 6]%N 8 [7; 8]%N [9; 10; 11; 12; 13; 14; 15; 16; 17; 18]%N 3 3 =
  Ok ([63; 129; 0; 161; 242; 175; 255; 83; 193; 91], [243; 43; 143], [9; 10; 11; 12; 13; 14; 15; 16; 17; 18], [243; 43; 143])%N.
Proof. vm_compute. reflexivity. Qed.

(** What fails.  IVs shorter than a block: only that many bytes of OMAC_0(N) start the counter, and longer tags read memory that was never written. *)
Definition ok_ct (x : res (list N * list N * list N * list N)) : list N := match x with Ok (c, _, _, _) => c | Err _ => [] end.
Theorem C38_short_iv_refuted : exists key iv pt b ct tag, bc_create tea_desc 0 key = Ok b /\ ae_both (eax_desc tea_desc) 0 key iv 8 [] pt 1 1 = Ok (ct, tag, pt, tag) /\
  ct <> eax_ciphertext 8 (fn (bc_enc tea_desc b)) 0x1b iv pt.
Proof.
  exists [1; 2; 3]%N, [4; 5; 6]%N, [9; 10]%N. eexists _, _, _. split; [vm_compute; reflexivity|]. split; [vm_compute; reflexivity|].
  intros H. apply (f_equal be_val) in H. revert H. apply N.eqb_neq. vm_compute. reflexivity.
Qed.
Theorem C38_long_tag_refuted : exists key iv s, ae_create (eax_desc tea_desc) 0 key iv 8 = Ok s /\ ae_tag (eax_desc tea_desc) s 8 = Err Uninit.
Proof. exists [1; 2; 3]%N, [4; 5; 6]%N. apply (made_fails _ (fun s => ae_tag (eax_desc tea_desc) s 8)). vm_compute. reflexivity. Qed.
(** Asking for the tag a second time (or after kripto_ae_verify) gives another one. *)
Definition two_tags (d : ae) (s : res (ae_st d)) (n : nat) : res (list N * list N) :=
  let* s := s in let* p := ae_tag d s n in let* q := ae_tag d (fst p) n in Ok (snd p, snd q).
Theorem C37_second_tag_refuted : exists t t', two_tags (eax_desc tea_desc) (ae_create (eax_desc tea_desc) 0 [1; 2; 3]%N [4; 5; 6]%N 8) 3 = Ok (t, t') /\ t <> t'.
Proof. eexists _, _. split; [vm_compute; reflexivity|]. intros H. apply (f_equal be_val) in H. revert H. apply N.eqb_neq. vm_compute. reflexivity. Qed.
Print Assumptions C38_short_iv_refuted. Print Assumptions C38_long_tag_refuted. Print Assumptions C37_second_tag_refuted.

(** C39.  The key: the MAC gets the first part and the stream cipher the rest, and nothing is left out or used twice. *)
Theorem C39_split sd key : (N.of_nat (length key) < 2 ^ 32 - 1)%N -> splits_key (sm_maxkey sd) key (eax2_mac_key sd key) (eax2_stream_key sd key).
Proof. exact (eax2_splits sd key). Qed.
(** Any stream cipher and any MAC that work with these keys ([stream_ready], [mac_ready] in Spec/Ae.v), an IV not longer than the tag,
    tags not longer than the IV. *)
Theorem C39_eax2 sd md r key iv n (okn okm : nat -> Prop) (ok0 okl : list nat -> Prop) T0 T (okt : nat -> Prop) :
  bytes_ok iv -> 0 < n -> length iv <= n -> ok0 [length iv] -> (exists t, okl [t]) -> (forall l, l <= n + length iv -> okm l) -> digests (length iv) okm T0 ->
  (forall t, okt t -> okl [t] /\ t <= length iv /\ digests t okm T) -> ae_args_ok (eax2_desc sd md) key iv n = true ->
  mac_ready md r (eax2_mac_key sd key) n ok0 okl okm T0 T -> stream_ready sd r (eax2_stream_key sd key) (length iv) okn ->
  exists s0, ae_create (eax2_desc sd md) r key iv n = Ok s0 /\ eax2_object n T0 T (eax2_desc sd md) sd s0 (sm_create sd r (eax2_stream_key sd key)) iv okn okm okt.
Proof. exact (eax2_create_ok sd md r key iv n okn okm ok0 okl T0 T okt). Qed.
(** ... and a recreate of an object that was used in any way, over ciphers and MACs whose recreate works from every object *)
Theorem C39_recreate sd md r0 key0 iv0 n0 s0 s r key iv n (okn okm : nat -> Prop) (ok0 okl : list nat -> Prop) T0 T (okt : nat -> Prop) :
  ae_create (eax2_desc sd md) r0 key0 iv0 n0 = Ok s0 -> ae_used (eax2_desc sd md) s0 s ->
  bytes_ok iv -> 0 < n -> length iv <= n -> ok0 [length iv] -> (exists t, okl [t]) -> (forall l, l <= n + length iv -> okm l) -> digests (length iv) okm T0 ->
  (forall t, okt t -> okl [t] /\ t <= length iv /\ digests t okm T) -> ae_args_ok (eax2_desc sd md) key iv n = true ->
  mac_always md r (eax2_mac_key sd key) n ok0 okl okm T0 T -> stream_always sd r (eax2_stream_key sd key) (length iv) okn ->
  exists s1 mkst, ae_recreate (eax2_desc sd md) s r key iv n = Ok s1 /\ (mkst = sm_create sd r (eax2_stream_key sd key) \/ mkst = sm_recreate sd (ax_stream sd md s) r (eax2_stream_key sd key)) /\
    eax2_object n T0 T (eax2_desc sd md) sd s1 mkst iv okn okm okt.
Proof. exact (eax2_reuse sd md r0 key0 iv0 n0 s0 s r key iv n okn okm ok0 okl T0 T okt). Qed.
(** The stream ciphers *)
Theorem C39_ctr c r key b n : bc_create c r key = Ok b -> works c b -> 0 < length key <= bc_maxkey c -> n <= bc_bs c -> stream_ready (ctr_stream c) r key n (fun _ => True).
Proof. exact (fun E W Hk => ctr_ready c r key b E W Hk n). Qed.
Theorem C39_ofb c r key b n : bc_create c r key = Ok b -> works c b -> 0 < length key <= bc_maxkey c -> n <= bc_bs c -> stream_ready (ofb_stream c) r key n (fun _ => True).
Proof. exact (fun E W Hk => ofb_ready c r key b E W Hk n). Qed.
Theorem C39_cbc c r key b n : bc_create c r key = Ok b -> works c b -> 0 < length key <= bc_maxkey c -> n <= bc_bs c -> stream_ready (cbc_stream c) r key n (fun _ => True).
Proof. exact (fun E W Hk => cbc_ready c r key b E W Hk n). Qed.
Theorem C39_chacha r key n : bytes_ok key -> 0 < length key <= 32 -> n <= 24 -> stream_always chacha_stream r key n (fun l => (N.of_nat l <= chacha_limit n)%N).
Proof. exact (chacha_always r key n). Qed.
Theorem C39_salsa20 r key n : bytes_ok key -> 0 < length key <= 32 -> n <= 24 -> stream_always salsa20_stream r key n (fun l => (N.of_nat l <= 2 ^ 70 - 64)%N).
Proof. exact (salsa20_always r key n). Qed.
Theorem C39_keccak1600 r key n : (r <= 48)%N -> bytes_ok key -> 0 < length key <= 99 -> (N.of_nat n <= 4294967295)%N -> stream_always (keccak_stream hash_keccak1600 99) r key n (fun _ => True).
Proof. exact (keccak1600_always r key n). Qed.
Theorem C39_keccak800 r key n : (r <= 40)%N -> bytes_ok key -> 0 < length key <= 49 -> (N.of_nat n <= 4294967295)%N -> stream_always (keccak_stream hash_keccak800 49) r key n (fun _ => True).
Proof. exact (keccak800_always r key n). Qed.
(** the lengths that one call takes, for EAX2 with any MAC: whole blocks for ECB and CBC, and anything else for the others; for EAX anything *)
Theorem C39_lengths c p md x : let take d := ae_multof (eax2_desc d md) in
  (x mod take (ecb_stream c) = 0 <-> x mod bc_bs c = 0) /\ (x mod take (cbc_stream c) = 0 <-> x mod bc_bs c = 0) /\
  Forall (fun d => x mod take d = 0) [cfb_stream c; ofb_stream c; ctr_stream c; chacha_stream; salsa20_stream; rc4_stream; keccak_stream hash_keccak800 49; keccak_stream hash_keccak1600 99; skein_stream p] /\
  x mod ae_multof (eax_desc c) = 0.
Proof. exact (lengths_ok c p md x). Qed.
(** ... with the MACs *)
Theorem C39_with_keccak1600 r key iv n sd okn : bytes_ok key -> 2 <= length key -> (N.of_nat (length key) < 2 ^ 32 - 1)%N -> bytes_ok iv -> 0 < n -> length iv <= n ->
  (0 < sm_maxkey sd)%N -> ae_args_ok (eax2_desc sd mac_keccak1600) key iv n = true -> (r <= 48)%N -> stream_ready sd r (eax2_stream_key sd key) (length iv) okn ->
  let T := fun m => sponge (keccak_bytes 8 (round_constant 64) (N.to_nat (rounds_of 24 r))) 200 (200 - 2 * n) 1 n (eax2_mac_key sd key ++ m) in
  exists s0, ae_create (eax2_desc sd mac_keccak1600) r key iv n = Ok s0 /\
    eax2_object n T T (eax2_desc sd mac_keccak1600) sd s0 (sm_create sd r (eax2_stream_key sd key)) iv okn (fun _ => True) (fun t => t <= length iv).
Proof. exact (fun Bk Lk Ls Bi Hn Li => eax2_keccak1600 r key iv n Bk Lk Ls Bi Hn Li sd okn). Qed.
Theorem C39_with_omac r key iv n sd c okn b F R : bytes_ok key -> 2 <= length key -> (N.of_nat (length key) < 2 ^ 32 - 1)%N -> bytes_ok iv -> 0 < n -> length iv <= n ->
  (0 < sm_maxkey sd)%N -> ae_args_ok (eax2_desc sd (omac_desc c)) key iv n = true -> length (eax2_mac_key sd key) <= bc_maxkey c ->
  bc_create c r (eax2_mac_key sd key) = Ok b -> works c b -> enc_fn c b F -> recreate_ok c b r (eax2_mac_key sd key) -> cmac_poly (bc_bs c) = Some R ->
  stream_ready sd r (eax2_stream_key sd key) (length iv) okn ->
  exists s0, ae_create (eax2_desc sd (omac_desc c)) r key iv n = Ok s0 /\
    eax2_object n (cmac (bc_bs c) F R) (cmac (bc_bs c) F R) (eax2_desc sd (omac_desc c)) sd s0 (sm_create sd r (eax2_stream_key sd key)) iv okn (fun _ => True) (fun t => t <= length iv).
Proof. exact (fun Bk Lk Ls Bi Hn Li => eax2_omac r key iv n Bk Lk Ls Bi Hn Li sd c okn b F R). Qed.
Theorem C39_with_hmac r key iv n sd d t cap cap0 cap1 okn okm : bytes_ok key -> 2 <= length key -> (N.of_nat (length key) < 2 ^ 32 - 1)%N -> bytes_ok iv -> 0 < n -> length iv <= n ->
  (0 < sm_maxkey sd)%N -> ae_args_ok (eax2_desc sd (hmac_desc d)) key iv n = true ->
  hash_use d r [] n cap okm -> hash_use d r [] (length iv) cap0 okm -> hash_use d r [] t cap1 okm -> n <= cap -> length iv <= cap0 -> t <= cap1 -> t <= length iv ->
  length (eax2_mac_key sd key) <= hs_blocksize d -> (forall l, l <= 2 * n -> okm (hs_blocksize d + l)) ->
  stream_ready sd r (eax2_stream_key sd key) (length iv) okn ->
  exists H H0 H1, computes d r [] n cap okm H /\ computes d r [] (length iv) cap0 okm H0 /\ computes d r [] t cap1 okm H1 /\
  let B := hs_blocksize d in
  let K := hmac_key B (fun m => firstn n (H m)) (eax2_mac_key sd key) in
  let T := fun H' l m => firstn l (H' (pad_key B opad K ++ firstn l (H (pad_key B ipad K ++ m)))) in
  exists s0, ae_create (eax2_desc sd (hmac_desc d)) r key iv n = Ok s0 /\
    eax2_object n (T H0 (length iv)) (T H1 t) (eax2_desc sd (hmac_desc d)) sd s0 (sm_create sd r (eax2_stream_key sd key)) iv okn
      (fun l => okm (B + l) /\ okm (B + length iv) /\ okm (B + t)) (eq t).
Proof. exact (fun Bk Lk Ls Bi Hn Li => eax2_hmac r key iv n Bk Lk Ls Bi Hn Li sd d t cap cap0 cap1 okn okm). Qed.
Print Assumptions C39_split. Print Assumptions C39_eax2. Print Assumptions C39_recreate. Print Assumptions C39_ctr. Print Assumptions C39_ofb. Print Assumptions C39_cbc.
Print Assumptions C39_chacha. Print Assumptions C39_salsa20. Print Assumptions C39_keccak1600. Print Assumptions C39_keccak800. Print Assumptions C39_lengths. Print Assumptions C39_with_keccak1600.
Print Assumptions C39_with_omac. Print Assumptions C39_with_hmac.
Example C39_case : exists ct tag, ae_both (eax2_desc chacha_stream (hmac_desc hash_sha2_256)) 0 p32 (firstn 16 p32) 32 [7; 8]%N [9; 10; 11; 12; 13]%N 3 16 = Err AssertFail /\
  ae_both (eax2_desc chacha_stream (hmac_desc hash_sha2_256)) 0 (firstn 31 p32) (firstn 16 p32) 32 [7; 8]%N [9; 10; 11; 12; 13]%N 3 16 = Ok (ct, tag, [9; 10; 11; 12; 13]%N, tag).
Proof. eexists _, _. split; [reflexivity|]. vm_compute. reflexivity. Qed.
Example C39_case_omac : exists ct tag, ae_both (eax2_desc (cbc_stream tea_desc) (omac_desc tea_desc)) 0 (firstn 20 p32) [1; 2; 3; 4; 5; 6; 7; 8]%N 8 [7; 8]%N (firstn 16 p32) 8 8 = Ok (ct, tag, firstn 16 p32, tag).
Proof. eexists _, _. vm_compute. reflexivity. Qed.

(** What fails.  An IV longer than the tag does not fit the room for it. *)
Theorem C39_long_iv_refuted sd md r key iv n s : n < length iv -> (forall m q t, mac_tag md m (length iv) = Ok (q, t) -> length t = length iv) ->
  ae_create (eax2_desc sd md) r key iv n = Ok s -> False.
Proof. exact (eax2_long_iv sd md r key iv n s). Qed.
Theorem C39_long_iv_write_refuted : ae_args_ok (eax2_desc (ctr_stream tea_desc) (omac_desc tea_desc)) [1; 2; 3; 4]%N [1; 2; 3; 4; 5; 6]%N 4 = true /\
  ae_create (eax2_desc (ctr_stream tea_desc) (omac_desc tea_desc)) 0 [1; 2; 3; 4]%N [1; 2; 3; 4; 5; 6]%N 4 = Err OobWrite.
Proof. split; [|apply fails_with]; vm_compute; reflexivity. Qed.
(** Tags of length zero write before the buffer. *)
Theorem C39_no_tag_refuted : ae_args_ok (eax2_desc (ctr_stream tea_desc) (omac_desc tea_desc)) [1; 2; 3; 4]%N [] 0 = true /\
  ae_create (eax2_desc (ctr_stream tea_desc) (omac_desc tea_desc)) 0 [1; 2; 3; 4]%N [] 0 = Err OobWrite.
Proof. split; [|apply fails_with]; vm_compute; reflexivity. Qed.
(** Tags longer than the IV. *)
Theorem C39_long_tag_refuted : exists s, ae_create (eax2_desc (ctr_stream tea_desc) (omac_desc tea_desc)) 0 [1; 2; 3; 4]%N [1; 2; 3; 4]%N 8 = Ok s /\
  ae_tag (eax2_desc (ctr_stream tea_desc) (omac_desc tea_desc)) s 8 = Err Uninit.
Proof. apply (made_fails _ (fun s => ae_tag (eax2_desc (ctr_stream tea_desc) (omac_desc tea_desc)) s 8)). vm_compute. reflexivity. Qed.
(** A key of one byte leaves nothing for the MAC, and the half of a longer key may be too long for it. *)
Theorem C39_short_key_refuted sd md r k iv n : (1 <= sm_maxkey sd)%N -> ae_create (eax2_desc sd md) r [k] iv n = Err AssertFail.
Proof.
  unfold ae_create. destruct (ae_args_ok _ _ _ _); [|reflexivity]. cbn [assert_ ae_mk eax2_desc]. intros H. unfold eax2_create.
  assert (E : eax2_mac_key sd [k] = []).
  { unfold eax2_mac_key, eax2_mac_len, eax2_stream_len. change (N.of_nat (length [k])) with 1%N. change ((1 + 1) mod 2 ^ 32 / 2)%N with 1%N.
    destruct (N.ltb_spec (sm_maxkey sd) 1) as [X|X]; [exfalso; apply (N.lt_irrefl 1); exact (N.le_lt_trans _ _ _ H X)|reflexivity]. }
  rewrite E. reflexivity.
Qed.
Theorem C39_mac_key_refuted : ae_args_ok (eax2_desc chacha_stream (omac_desc tea_desc)) (repeat 1%N 48) [1; 2; 3]%N 8 = true /\
  ae_create (eax2_desc chacha_stream (omac_desc tea_desc)) 0 (repeat 1%N 48) [1; 2; 3]%N 8 = Err AssertFail.
Proof. split; [|apply fails_with]; vm_compute; reflexivity. Qed.
(** The greatest length of a key wraps around: ChaCha takes keys of 32 bytes and HMAC of any length, but together only 31 bytes. *)
Theorem C39_maxkey_refuted : sm_maxkey chacha_stream = 32%N /\ ae_maxkey (eax2_desc chacha_stream (hmac_desc hash_sha2_256)) = 31%N.
Proof. split; reflexivity. Qed.
Print Assumptions C39_long_iv_refuted. Print Assumptions C39_long_iv_write_refuted. Print Assumptions C39_no_tag_refuted. Print Assumptions C39_long_tag_refuted.
Print Assumptions C39_short_key_refuted. Print Assumptions C39_mac_key_refuted. Print Assumptions C39_maxkey_refuted.
