(** include/kripto/desc/stream.h: the descriptors of the stream ciphers.  The asserts of lib/stream.c on the key, the IV and the length
    are part of the operations (see the models of the ciphers). *)
From Coq Require Import NArith Arith List Bool.
From Verif Require Import Lib.Res Model.Mem Model.BlockApi Model.Modes Model.Chacha Model.Salsa20 Model.Rc4 Model.HashApi Model.Keccak Model.KeccakStream Model.Threefish Model.Skein.
Import ListNotations.

(** desc/stream.h and stream.c:22-26: create(rounds, key, iv), recreate, encrypt(from, to, length), decrypt, multof, maxkey, maxiv *)
Record stream := {
  sm_st : Type;
  sm_create : N -> list N -> list N -> res sm_st;
  sm_recreate : sm_st -> N -> list N -> list N -> res sm_st;
  sm_enc : sm_st -> mem -> nat -> nat -> nat -> res (sm_st * mem);
  sm_dec : sm_st -> mem -> nat -> nat -> nat -> res (sm_st * mem);
  sm_multof : nat;
  sm_maxkey : N;
  sm_maxiv : N }.

Section Modes.
  Variable c : bcipher.
  (** an object that an operation leaves as it is *)
  Definition same {S} (s : S) (m : res mem) : res (S * mem) := let* m := m in Ok (s, m).
  (** ecb.c:137-155 *)
  Definition ecb_stream : stream := {|
    sm_st := ecb c; sm_create := ecb_create c; sm_recreate := ecb_recreate c;
    sm_enc := fun s m a b n => same s (ecb_encrypt c s m a b n); sm_dec := fun s m a b n => same s (ecb_decrypt c s m a b n);
    sm_multof := bc_bs c; sm_maxkey := N.of_nat (bc_maxkey c); sm_maxiv := 0 |}.
  (** cbc.c:169-186 *)
  Definition cbc_stream : stream := {|
    sm_st := cbc c; sm_create := cbc_create c; sm_recreate := cbc_recreate c; sm_enc := cbc_encrypt c; sm_dec := cbc_decrypt c;
    sm_multof := bc_bs c; sm_maxkey := N.of_nat (bc_maxkey c); sm_maxiv := N.of_nat (bc_bs c) |}.
  (** cfb.c:182-200 *)
  Definition cfb_stream : stream := {|
    sm_st := fb c; sm_create := fb_create c; sm_recreate := fb_recreate c; sm_enc := cfb_encrypt c; sm_dec := cfb_decrypt c;
    sm_multof := 1; sm_maxkey := N.of_nat (bc_maxkey c); sm_maxiv := N.of_nat (bc_bs c) |}.
  (** ofb.c:159-177 *)
  Definition ofb_stream : stream := {|
    sm_st := fb c; sm_create := fb_create c; sm_recreate := fb_recreate c; sm_enc := ofb_crypt c; sm_dec := ofb_crypt c;
    sm_multof := 1; sm_maxkey := N.of_nat (bc_maxkey c); sm_maxiv := N.of_nat (bc_bs c) |}.
  (** ctr.c:170-188 *)
  Definition ctr_stream : stream := {|
    sm_st := ctr c; sm_create := ctr_create c; sm_recreate := ctr_recreate c; sm_enc := ctr_crypt c; sm_dec := ctr_crypt c;
    sm_multof := 1; sm_maxkey := N.of_nat (bc_maxkey c); sm_maxiv := N.of_nat (bc_bs c) |}.
End Modes.
(** chacha.c, salsa20.c, rc4.c: the descriptors at the end of the files *)
Definition chacha_stream : stream := {|
  sm_st := chacha; sm_create := chacha_create; sm_recreate := chacha_recreate; sm_enc := chacha_crypt; sm_dec := chacha_crypt;
  sm_multof := 1; sm_maxkey := N.of_nat chacha_maxkey; sm_maxiv := N.of_nat chacha_maxiv |}.
Definition salsa20_stream : stream := {|
  sm_st := salsa20; sm_create := salsa20_create; sm_recreate := salsa20_recreate; sm_enc := salsa20_crypt; sm_dec := salsa20_crypt;
  sm_multof := 1; sm_maxkey := N.of_nat salsa20_maxkey; sm_maxiv := N.of_nat salsa20_maxiv |}.
Definition rc4_stream : stream := {|
  sm_st := rc4; sm_create := rc4_create; sm_recreate := rc4_recreate; sm_enc := rc4_crypt; sm_dec := rc4_crypt;
  sm_multof := 1; sm_maxkey := N.of_nat rc4_maxkey; sm_maxiv := 0 |}.
(** stream/keccak.c:129-141, 173-185 *)
Definition keccak_stream (h : hash) (maxkey : nat) : stream := {|
  sm_st := hs_st h; sm_create := kst_create h maxkey; sm_recreate := kst_recreate h maxkey; sm_enc := kst_crypt h; sm_dec := kst_crypt h;
  sm_multof := 1; sm_maxkey := N.of_nat maxkey; sm_maxiv := 4294967295 |}.
(** stream/skein256.c:280-290 *)
Definition skein_stream (p : tf_par) : stream := {|
  sm_st := sks; sm_create := sks_create p; sm_recreate := sks_recreate p; sm_enc := sks_crypt p; sm_dec := sks_crypt p;
  sm_multof := 1; sm_maxkey := 4294967295; sm_maxiv := 4294967295 |}.
