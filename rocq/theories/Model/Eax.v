(** lib/ae/eax.c and lib/ae/eax2.c and the interface lib/ae.c.  Allocations are taken to succeed (see the life cycle model). *)
From Coq Require Import NArith Arith List Bool.
From Verif Require Import Lib.Res Model.Mem Model.Util Model.BlockApi Model.Modes Model.StreamApi Model.MacApi Model.Omac.
Import ListNotations.
Local Open Scope nat_scope.

(** desc/ae.h: create(rounds, key, iv, tag_len), recreate, encrypt, decrypt, header, tag, maxkey, maxiv, maxtag, and the object's multof *)
Record ae := {
  ae_st : Type;
  ae_mk : N -> list N -> list N -> nat -> res ae_st;
  ae_remk : ae_st -> N -> list N -> list N -> nat -> res ae_st;
  ae_enc : ae_st -> mem -> nat -> nat -> nat -> res (ae_st * mem);
  ae_dec : ae_st -> mem -> nat -> nat -> nat -> res (ae_st * mem);
  ae_hdr : ae_st -> list N -> res ae_st;
  ae_out : ae_st -> nat -> res (ae_st * list N);
  ae_multof : nat;
  ae_maxkey : N; ae_maxiv : N; ae_maxtag : nat }.
(** ae.c:41-46, 67-72 *)
Definition ae_args_ok (d : ae) (key iv : list N) (n : nat) : bool :=
  (0 <? length key) && (N.of_nat (length key) <=? ae_maxkey d)%N && (N.of_nat (length iv) <=? ae_maxiv d)%N && (n <=? ae_maxtag d).
(** ae.c:27-49 *)
Definition ae_create (d : ae) (r : N) (key iv : list N) (n : nat) : res (ae_st d) := assert_ (ae_args_ok d key iv n) (ae_mk d r key iv n).
(** ae.c:51-75 *)
Definition ae_recreate (d : ae) (s : ae_st d) (r : N) (key iv : list N) (n : nat) : res (ae_st d) := assert_ (ae_args_ok d key iv n) (ae_remk d s r key iv n).
(** ae.c:77-91, 93-107 *)
Definition ae_encrypt (d : ae) (s : ae_st d) (m : mem) (src dst len : nat) : res (ae_st d * mem) := assert_ (len mod ae_multof d =? 0) (ae_enc d s m src dst len).
Definition ae_decrypt (d : ae) (s : ae_st d) (m : mem) (src dst len : nat) : res (ae_st d * mem) := assert_ (len mod ae_multof d =? 0) (ae_dec d s m src dst len).
(** ae.c:109-121, 123-135 *)
Definition ae_header (d : ae) (s : ae_st d) (l : list N) : res (ae_st d) := ae_hdr d s l.
Definition ae_tag (d : ae) (s : ae_st d) (len : nat) : res (ae_st d * list N) := ae_out d s len.
(** ae.c:137-147: "char t[len]" *)
Definition ae_verify (d : ae) (s : ae_st d) (tag : list N) : res (ae_st d * N) :=
  let len := length tag in
  if len =? 0 then Err VlaZero else
  let* q := ae_out d s len in
  Ok (fst q, memory_equals (wr (wr (fun _ => 0%N) 0 (snd q)) len tag) 0 len len).

(** eax.c:32-43 and eax2.c:29-38.  [ax_iv] are the bytes of iv that have been written, [ax_cap] is the room allocated for it
    and [ax_len] the member len. *)
Section Ops.
  Variables (sd : stream) (md : mac).
  Record axst := { ax_stream : sm_st sd; ax_mac : mc_st md; ax_header : mc_st md; ax_iv : list N; ax_cap : nat; ax_len : nat }.
  (** eax.c:45-55, eax2.c:40-50 *)
  Definition ax_encrypt (s : axst) (m : mem) (src dst len : nat) : res (axst * mem) :=
    let* q := sm_enc sd (ax_stream s) m src dst len in
    let* h := mac_input md (ax_mac s) (rd (snd q) dst len) in
    Ok ({| ax_stream := fst q; ax_mac := h; ax_header := ax_header s; ax_iv := ax_iv s; ax_cap := ax_cap s; ax_len := ax_len s |}, snd q).
  (** eax.c:57-67, eax2.c:52-62 *)
  Definition ax_decrypt (s : axst) (m : mem) (src dst len : nat) : res (axst * mem) :=
    let* h := mac_input md (ax_mac s) (rd m src len) in
    let* q := sm_dec sd (ax_stream s) m src dst len in
    Ok ({| ax_stream := fst q; ax_mac := h; ax_header := ax_header s; ax_iv := ax_iv s; ax_cap := ax_cap s; ax_len := ax_len s |}, snd q).
  (** eax.c:69-77, eax2.c:64-72 *)
  Definition ax_head (s : axst) (l : list N) : res axst :=
    let* h := mac_input md (ax_header s) l in
    Ok {| ax_stream := ax_stream s; ax_mac := ax_mac s; ax_header := h; ax_iv := ax_iv s; ax_cap := ax_cap s; ax_len := ax_len s |}.
  (** writing the first bytes of the member iv *)
  Definition iv_write (cap : nat) (iv l : list N) : res (list N) :=
    if length l <=? cap then Ok (l ++ skipn (length l) iv) else Err OobWrite.
  (** reading them: bytes that were not written before are not initialised *)
  Definition iv_read (cap : nat) (iv : list N) (n : nat) : res (list N) :=
    if n <=? length iv then Ok (firstn n iv) else if n <=? cap then Err Uninit else Err OobRead.
  Definition xor_lists (a b : list N) : list N := map (fun p => N.lxor (fst p) (snd p)) (combine a b).
  (** eax.c:79-95, eax2.c:74-90 *)
  Definition ax_tag (s : axst) (len : nat) : res (axst * list N) :=
    let* q := mac_tag md (ax_mac s) len in
    let* n := iv_read (ax_cap s) (ax_iv s) len in
    let t := xor_lists (snd q) n in
    let* p := mac_tag md (ax_header s) len in
    let* iv := iv_write (ax_cap s) (ax_iv s) (snd p) in
    Ok ({| ax_stream := ax_stream s; ax_mac := fst q; ax_header := fst p; ax_iv := iv; ax_cap := ax_cap s; ax_len := ax_len s |},
        xor_lists t (firstn len iv)).
  (** buf[tag_len - 1] = v on a buffer of [len] zeros (or of zeros and a last byte): eax.c:167, 177 and eax2.c:155, 172 *)
  Definition last_byte (len : nat) (v : N) : res (list N) := if len =? 0 then Err OobWrite else Ok (repeat 0%N (len - 1) ++ [v]).
  (** eax.c:156-180, 212-236 and eax2.c:144-177, 224-257: [m0] is the MAC object, made anew for the message, [mkstream] makes the stream
      from an IV and [mkhead] the MAC of the header.  [iv0] is what iv held before, [n] the length of buf. *)
  Definition ax_fill (cap : nat) (iv0 : list N) (m0 : mc_st md) (r : N) (key iv : list N) (n : nat)
      (mkstream : list N -> res (sm_st sd)) (mkhead : res (mc_st md)) : res axst :=
    let* m := mac_input md m0 (repeat 0%N n) in
    let* m := mac_input md m iv in
    let* q := mac_tag md m (length iv) in
    let* niv := iv_write cap iv0 (snd q) in
    let* m := mac_recreate md (fst q) r key n in
    let* b := last_byte n 2 in
    let* m := mac_input md m b in
    let* st := mkstream (firstn (length iv) niv) in
    let* h := mkhead in
    let* b := last_byte n 1 in
    let* h := mac_input md h b in
    Ok {| ax_stream := st; ax_mac := m; ax_header := h; ax_iv := niv; ax_cap := cap; ax_len := n |}.
End Ops.

(** * EAX *)
Section Eax.
  Variable c : bcipher.
  Let len := bc_bs c.
  Let sd := ctr_stream c.
  Let md := omac_desc c.
  (** eax.c:119-192; tag_len is not used *)
  Definition eax_create (r : N) (key iv : list N) (n : nat) : res (axst sd md) :=
    let* m0 := mac_create md r key len in
    ax_fill sd md len [] m0 r key iv len (sm_create sd r key) (mac_create md r key len).
  (** eax.c:194-249 *)
  Definition eax_recreate (s : axst sd md) (r : N) (key iv : list N) (n : nat) : res (axst sd md) :=
    let* m0 := mac_recreate md (ax_mac sd md s) r key len in
    ax_fill sd md len (ax_iv sd md s) m0 r key iv len (sm_recreate sd (ax_stream sd md s) r key) (mac_recreate md (ax_header sd md s) r key len).
  (** eax.c:251-270 *)
  Definition eax_desc : ae := {|
    ae_st := axst sd md; ae_mk := eax_create; ae_remk := eax_recreate; ae_enc := ax_encrypt sd md; ae_dec := ax_decrypt sd md;
    ae_hdr := ax_head sd md; ae_out := ax_tag sd md; ae_multof := 1;
    ae_maxkey := N.of_nat (bc_maxkey c); ae_maxiv := N.of_nat len; ae_maxtag := len |}.
End Eax.

(** * EAX2 *)
Section Eax2.
  Variables (sd : stream) (md : mac).
  (** eax2.c:138-142, 218-222 in unsigned int: the numbers of bytes of the stream key and of the MAC key *)
  Definition eax2_stream_len (key_len : N) : N :=
    let half := (((key_len + 1) mod 2 ^ 32) / 2)%N in
    if (sm_maxkey sd <? half)%N then sm_maxkey sd else half.
  Definition eax2_mac_len (key_len : N) : N := ((key_len + (2 ^ 32 - eax2_stream_len key_len)) mod 2 ^ 32)%N.
  Definition eax2_mac_key (key : list N) : list N := firstn (N.to_nat (eax2_mac_len (N.of_nat (length key)))) key.
  Definition eax2_stream_key (key : list N) : list N :=
    firstn (N.to_nat (eax2_stream_len (N.of_nat (length key)))) (skipn (N.to_nat (eax2_mac_len (N.of_nat (length key)))) key).
  (** eax2.c:112-185; s is allocated with room for tag_len bytes of iv *)
  Definition eax2_create (r : N) (key iv : list N) (n : nat) : res (axst sd md) :=
    let* m0 := mac_create md r (eax2_mac_key key) n in
    ax_fill sd md n [] m0 r (eax2_mac_key key) iv n (sm_create sd r (eax2_stream_key key)) (mac_create md r (eax2_mac_key key) n).
  (** eax2.c:187-266: an object whose member len is too small is destroyed and made anew; otherwise the bytes of iv that are
      given up are wiped (here: zeroed), and len becomes smaller while the memory stays *)
  Definition eax2_recreate (s : axst sd md) (r : N) (key iv : list N) (n : nat) : res (axst sd md) :=
    if ax_len sd md s <? n then eax2_create r key iv n else
    let iv0 := firstn n (ax_iv sd md s) ++ map (fun _ => 0%N) (skipn n (ax_iv sd md s)) in
    let* m0 := mac_recreate md (ax_mac sd md s) r (eax2_mac_key key) n in
    ax_fill sd md (ax_cap sd md s) iv0 m0 r (eax2_mac_key key) iv n (sm_recreate sd (ax_stream sd md s) r (eax2_stream_key key))
      (mac_recreate md (ax_header sd md s) r (eax2_mac_key key) n).
  (** eax2.c:268-292; the sum of the key sizes is in unsigned int *)
  Definition eax2_desc : ae := {|
    ae_st := axst sd md; ae_mk := eax2_create; ae_remk := eax2_recreate; ae_enc := ax_encrypt sd md; ae_dec := ax_decrypt sd md;
    ae_hdr := ax_head sd md; ae_out := ax_tag sd md; ae_multof := sm_multof sd;
    ae_maxkey := ((sm_maxkey sd + mc_maxkey md) mod 2 ^ 32)%N; ae_maxiv := sm_maxiv sd; ae_maxtag := mc_maxtag md |}.
End Eax2.
