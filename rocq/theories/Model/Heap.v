(** Which objects the library allocates and frees.  Of an object only the pointers it holds are kept; its other contents (keys, buffers)
    are in the other models.  Every malloc may fail. *)
From Coq Require Import Arith List Bool.
From Verif Require Import Lib.Res.
Import ListNotations.

(** The heap: the pointers in each live object, addresses from [hp_next] on were never used (an address is not used twice, so that the use of a
    freed object is seen), which of the coming calls of malloc fail, and which of the coming calls of recreate replace their object.  NULL is 0. *)
Record heap := { hp_cell : nat -> option (list nat); hp_next : nat; hp_fails : nat -> bool; hp_renews : nat -> bool }.
Definition prog (A : Type) : Type := heap -> res (A * heap).
Definition ret {A} (a : A) : prog A := fun h => Ok (a, h).
Definition seq_ {A B} (p : prog A) (q : A -> prog B) : prog B := fun h => match p h with Ok (a, h') => q a h' | Err e => Err e end.
Notation "'let!' x ':=' p 'in' q" := (seq_ p (fun x => q)) (at level 200, x pattern, p at level 100, q at level 200).
Notation "'do!' p 'in' q" := (seq_ p (fun _ => q)) (at level 200, p at level 100, q at level 200).

Definition set_cell (c : nat -> option (list nat)) (a : nat) (v : option (list nat)) : nat -> option (list nat) := fun x => if x =? a then v else c x.
(** malloc of an object with [n] pointers; they are NULL before they are set, which every use of them refuses *)
Definition halloc (n : nat) : prog nat := fun h =>
  let f := fun k => hp_fails h (S k) in
  if hp_fails h 0 then Ok (0, {| hp_cell := hp_cell h; hp_next := hp_next h; hp_fails := f; hp_renews := hp_renews h |})
  else Ok (hp_next h, {| hp_cell := set_cell (hp_cell h) (hp_next h) (Some (repeat 0 n)); hp_next := S (hp_next h); hp_fails := f; hp_renews := hp_renews h |}).
(** a read of the object: "assert(s)", and freed memory *)
Definition look (a : nat) : prog (list nat) := fun h => if a =? 0 then Err AssertFail else match hp_cell h a with Some v => Ok (v, h) | None => Err UseAfterFree end.
Definition with_cell (h : heap) (a : nat) (v : option (list nat)) : heap := {| hp_cell := set_cell (hp_cell h) a v; hp_next := hp_next h; hp_fails := hp_fails h; hp_renews := hp_renews h |}.
(** free; free(NULL) does nothing *)
Definition hfree (a : nat) : prog unit := fun h => if a =? 0 then Ok (tt, h) else match hp_cell h a with Some _ => Ok (tt, with_cell h a None) | None => Err UseAfterFree end.
(** the pointer number [i] of an object *)
Definition hget (a i : nat) : prog nat := let! v := look a in fun h => match nth_error v i with Some p => Ok (p, h) | None => Err OobRead end.
Definition hset (a i p : nat) : prog unit := let! v := look a in fun h => if i <? length v then Ok (tt, with_cell h a (Some (upd v i p))) else Err OobWrite.
(** whether the next recreate replaces its object *)
Definition renews : prog bool := fun h => Ok (hp_renews h 0, {| hp_cell := hp_cell h; hp_next := hp_next h; hp_fails := hp_fails h; hp_renews := fun k => hp_renews h (S k) |}).

(** Descriptors (include/kripto/desc): create, recreate, input or encryption, tag or output, destroy. *)
Record kind := { kd_create : prog nat; kd_recreate : nat -> prog nat; kd_use : nat -> prog unit; kd_tag : nat -> prog unit; kd_destroy : nat -> prog unit }.

(** ** Objects without pointers: block ciphers, chacha, salsa20, rc4, the hashes but Skein *)
Definition plain_use (a : nat) : prog unit := do! look a in ret tt.
Definition plain_destroy (a : nat) : prog unit := do! look a in hfree a.
(** rekeyed in place, as hash/sha1.c, stream/chacha.c, block/tea.c, and block/xtea.c for the same number of rounds *)
Definition plain : kind := {| kd_create := halloc 0; kd_recreate := fun a => do! look a in ret a; kd_use := plain_use; kd_tag := plain_use; kd_destroy := plain_destroy |}.
(** replaced by a new object whenever it likes, as block/xtea.c:143-147 is meant to for other rounds *)
Definition renewing : kind := {| kd_create := halloc 0;
  kd_recreate := fun a => do! look a in let! b := renews in if b then do! plain_destroy a in halloc 0 else ret a;
  kd_use := plain_use; kd_tag := plain_use; kd_destroy := plain_destroy |}.
(** as it is: block/xtea.c:146 reads s->desc of the freed object *)
Definition stale : kind := {| kd_create := halloc 0;
  kd_recreate := fun a => do! look a in let! b := renews in if b then do! plain_destroy a in do! look a in halloc 0 else ret a;
  kd_use := plain_use; kd_tag := plain_use; kd_destroy := plain_destroy |}.

(** ** Stream modes: stream/ecb.c:59-133, cbc.c:93-167, cfb.c:104-181, ofb.c:81-158, ctr.c:90-168.  The pointer: block. *)
Section Modes.
  Variable b : kind.
  Definition mode_create : prog nat :=
    let! s := halloc 1 in
    if s =? 0 then ret 0 else
    let! p := kd_create b in
    do! hset s 0 p in
    if p =? 0 then do! hfree s in ret 0 else ret s.
  Definition mode_recreate (s : nat) : prog nat :=
    let! p := hget s 0 in
    let! p := kd_recreate b p in
    do! hset s 0 p in
    if p =? 0 then do! hfree s in ret 0 else ret s.
  Definition mode_use (s : nat) : prog unit := let! p := hget s 0 in kd_use b p.
  Definition mode_destroy (s : nat) : prog unit := let! p := hget s 0 in do! kd_destroy b p in hfree s.
  Definition mode_kind : kind := {| kd_create := mode_create; kd_recreate := mode_recreate; kd_use := mode_use; kd_tag := mode_use; kd_destroy := mode_destroy |}.

  (** mac/omac.c:304-361 (omac_init, which encrypts), 420-424, 434-488 *)
  Definition omac_create : prog nat :=
    let! s := halloc 1 in
    if s =? 0 then ret 0 else
    let! p := kd_create b in
    do! hset s 0 p in
    if p =? 0 then do! hfree s in ret 0 else
    do! mode_use s in ret s.
  Definition omac_recreate (s : nat) : prog nat :=
    let! p := hget s 0 in
    let! p := kd_recreate b p in
    do! hset s 0 p in
    if p =? 0 then do! hfree s in ret 0 else
    do! mode_use s in ret s.
  Definition omac_kind : kind := {| kd_create := omac_create; kd_recreate := omac_recreate; kd_use := mode_use; kd_tag := mode_use; kd_destroy := mode_destroy |}.

  (** mac/xcbc.c:41-67: three encryptions, then the new key *)
  Definition xcbc_init (s : nat) : prog bool :=
    do! mode_use s in do! mode_use s in do! mode_use s in
    let! p := hget s 0 in
    let! p := kd_recreate b p in
    do! hset s 0 p in
    ret (negb (p =? 0)).
  (** xcbc.c:133-166 *)
  Definition xcbc_create : prog nat :=
    let! s := halloc 1 in
    if s =? 0 then ret 0 else
    let! p := kd_create b in
    do! hset s 0 p in
    if p =? 0 then do! hfree s in ret 0 else
    let! ok := xcbc_init s in
    if ok then ret s else do! hfree s in ret 0.
  (** xcbc.c:168-191 *)
  Definition xcbc_recreate (s : nat) : prog nat :=
    let! p := hget s 0 in
    let! p := kd_recreate b p in
    do! hset s 0 p in
    if p =? 0 then do! hfree s in ret 0 else
    let! ok := xcbc_init s in
    if ok then ret s else do! hfree s in ret 0.
  Definition xcbc_kind : kind := {| kd_create := xcbc_create; kd_recreate := xcbc_recreate; kd_use := mode_use; kd_tag := mode_use; kd_destroy := mode_destroy |}.

  (** The three Skeins: hash/skein256.c:60-75 (skein256_process: recreate, its result dropped), 195-225; mac/skein256.c and stream/skein256.c the same *)
  Definition skein_process (s : nat) : prog unit := let! p := hget s 0 in do! kd_recreate b p in kd_use b p.
  Definition skein_recreate (s : nat) : prog nat := do! skein_process s in ret s.
  Definition skein_create : prog nat :=
    let! s := halloc 1 in
    if s =? 0 then ret 0 else
    let! p := kd_create b in
    do! hset s 0 p in
    if p =? 0 then do! hfree s in ret 0 else skein_recreate s.
  Definition skein_kind : kind := {| kd_create := skein_create; kd_recreate := skein_recreate; kd_use := skein_process; kd_tag := skein_process; kd_destroy := mode_destroy |}.
  (** hash/skein256.c:225-251 (kripto_hash_all): an object on the stack *)
  Definition skein_all : prog bool :=
    let! p := kd_create b in
    if p =? 0 then ret false else
    do! kd_recreate b p in do! kd_use b p in do! kd_destroy b p in ret true.
End Modes.

(** ** MACs over a hash: mac/keccak.c:47-125; stream/keccak.c:33-170 the same.  The result of kripto_hash_recreate is dropped. *)
Section Hashes.
  Variable k : kind.
  Definition keccak_create : prog nat :=
    let! s := halloc 1 in
    if s =? 0 then ret 0 else
    let! p := kd_create k in
    do! hset s 0 p in
    if p =? 0 then do! hfree s in ret 0 else
    do! kd_use k p in ret s.
  Definition keccak_recreate (s : nat) : prog nat := let! p := hget s 0 in do! kd_recreate k p in let! p := hget s 0 in do! kd_use k p in ret s.
  Definition keccak_tag (s : nat) : prog unit := let! p := hget s 0 in kd_tag k p.
  Definition keccak_destroy (s : nat) : prog unit := let! p := hget s 0 in do! kd_destroy k p in hfree s.
  Definition keccak_kind : kind := {| kd_create := keccak_create; kd_recreate := keccak_recreate; kd_use := mode_use k; kd_tag := keccak_tag; kd_destroy := keccak_destroy |}.

  (** mac/hmac.c:37-79: [all] is kripto_hash_all if the key is longer than a block *)
  Variable all : option (prog bool).
  Definition hmac_init (s : nat) : prog bool :=
    let! ok := match all with Some p => p | None => ret true end in
    if ok then do! mode_use k s in ret true else ret false.
  (** hmac.c:87-100: recreate, its result dropped *)
  Definition hmac_tag (s : nat) : prog unit :=
    let! p := hget s 0 in
    do! kd_tag k p in do! kd_recreate k p in do! kd_use k p in do! kd_use k p in kd_tag k p.
  (** hmac.c:102-108 *)
  Definition hmac_destroy (s : nat) : prog unit := let! p := hget s 0 in do! kd_destroy k p in hfree s.
  (** hmac.c:118-151 *)
  Definition hmac_create : prog nat :=
    let! s := halloc 1 in
    if s =? 0 then ret 0 else
    let! p := kd_create k in
    do! hset s 0 p in
    if p =? 0 then do! hfree s in ret 0 else
    let! ok := hmac_init s in
    if ok then ret s else do! hmac_destroy s in ret 0.
  (** hmac.c:153-180 *)
  Definition hmac_recreate (s : nat) : prog nat :=
    let! p := hget s 0 in
    let! p := kd_recreate k p in
    do! hset s 0 p in
    if p =? 0 then do! hfree s in ret 0 else
    let! ok := hmac_init s in
    if ok then ret s else do! hmac_destroy s in ret 0.
  Definition hmac_kind : kind := {| kd_create := hmac_create; kd_recreate := hmac_recreate; kd_use := mode_use k; kd_tag := hmac_tag; kd_destroy := hmac_destroy |}.
End Hashes.

(** ** EAX: ae/eax.c.  The pointers: ctr_desc, omac_desc, ctr, omac, header. *)
Section Eax.
  Variable b : kind.
  Local Notation ctr := (mode_kind b).
  Local Notation omac := (omac_kind b).
  (** eax.c:44-65: encryption; decryption and headers touch no more *)
  Definition eax_use (s : nat) : prog unit :=
    let! c := hget s 2 in do! kd_use ctr c in
    let! m := hget s 3 in do! kd_use omac m in
    let! m := hget s 4 in kd_use omac m.
  (** eax.c:76-92 *)
  Definition eax_tag (s : nat) : prog unit := let! m := hget s 3 in do! kd_tag omac m in let! m := hget s 4 in kd_tag omac m.
  (** eax.c:94-106 *)
  Definition eax_destroy (s : nat) : prog unit :=
    let! c := hget s 2 in do! kd_destroy ctr c in
    let! m := hget s 3 in do! kd_destroy omac m in
    let! m := hget s 4 in do! kd_destroy omac m in
    let! d := hget s 0 in do! hfree d in
    let! d := hget s 1 in do! hfree d in
    hfree s.
  (** eax.c:184-191: the end of create from a label on *)
  Definition eax_err1 (buf : nat) : prog nat := do! hfree buf in ret 0.
  Definition eax_err2 (buf s : nat) : prog nat := do! hfree s in eax_err1 buf.
  Definition eax_err3 (buf s : nat) : prog nat := let! d := hget s 0 in do! hfree d in eax_err2 buf s.
  Definition eax_err4 (buf s : nat) : prog nat := let! d := hget s 1 in do! hfree d in eax_err3 buf s.
  Definition eax_err5 (buf s : nat) : prog nat := do! look s in eax_err4 buf s.
  Definition eax_err6 (buf s : nat) : prog nat := let! m := hget s 3 in do! kd_destroy omac m in eax_err5 buf s.
  Definition eax_err7 (buf s : nat) : prog nat := let! c := hget s 2 in do! kd_destroy ctr c in eax_err6 buf s.
  (** eax.c:116-183 *)
  Definition eax_create : prog nat :=
    let! buf := halloc 0 in
    if buf =? 0 then ret 0 else
    let! s := halloc 5 in
    if s =? 0 then eax_err1 buf else
    let! d := halloc 0 in
    do! hset s 0 d in
    if d =? 0 then eax_err2 buf s else
    let! d := halloc 0 in
    do! hset s 1 d in
    if d =? 0 then eax_err3 buf s else
    let! m := kd_create omac in
    do! hset s 3 m in
    if m =? 0 then eax_err4 buf s else
    do! kd_use omac m in do! kd_use omac m in do! kd_tag omac m in
    let! m := kd_recreate omac m in
    do! hset s 3 m in
    if m =? 0 then eax_err5 buf s else
    do! kd_use omac m in
    let! c := kd_create ctr in
    do! hset s 2 c in
    if c =? 0 then eax_err6 buf s else
    let! m := kd_create omac in
    do! hset s 4 m in
    if m =? 0 then eax_err7 buf s else
    do! kd_use omac m in
    do! hfree buf in
    ret s.
  (** eax.c:245-254 *)
  Definition eax_re0 (s : nat) : prog nat := let! d := hget s 0 in do! hfree d in let! d := hget s 1 in do! hfree d in do! look s in do! hfree s in ret 0.
  Definition eax_re1 (buf s : nat) : prog nat := do! hfree buf in eax_re0 s.
  Definition eax_re2 (buf s : nat) : prog nat := let! m := hget s 3 in do! kd_destroy omac m in eax_re1 buf s.
  Definition eax_re3 (buf s : nat) : prog nat := let! c := hget s 2 in do! kd_destroy ctr c in eax_re2 buf s.
  (** eax.c:194-244 *)
  Definition eax_recreate (s : nat) : prog nat :=
    let! buf := halloc 0 in
    if buf =? 0 then eax_re0 s else
    let! m := hget s 3 in
    let! m := kd_recreate omac m in
    do! hset s 3 m in
    if m =? 0 then eax_re1 buf s else
    do! kd_use omac m in do! kd_use omac m in do! kd_tag omac m in
    let! m := kd_recreate omac m in
    do! hset s 3 m in
    if m =? 0 then eax_re1 buf s else
    do! kd_use omac m in
    let! c := hget s 2 in
    let! c := kd_recreate ctr c in
    do! hset s 2 c in
    if c =? 0 then eax_re2 buf s else
    let! m := hget s 4 in
    let! m := kd_recreate omac m in
    do! hset s 4 m in
    if m =? 0 then eax_re3 buf s else
    do! kd_use omac m in
    do! hfree buf in
    ret s.
  Definition eax_kind : kind := {| kd_create := eax_create; kd_recreate := eax_recreate; kd_use := eax_use; kd_tag := eax_tag; kd_destroy := eax_destroy |}.
End Eax.

(** ** EAX2: ae/eax2.c.  The pointers: stream, mac, header. *)
Section Eax2.
  Variable st mac : kind.
  (** eax2.c:38-59 *)
  Definition eax2_use (s : nat) : prog unit :=
    let! c := hget s 0 in do! kd_use st c in
    let! m := hget s 1 in do! kd_use mac m in
    let! m := hget s 2 in kd_use mac m.
  (** eax2.c:70-86 *)
  Definition eax2_tag (s : nat) : prog unit := let! m := hget s 1 in do! kd_tag mac m in let! m := hget s 2 in kd_tag mac m.
  (** eax2.c:88-97 *)
  Definition eax2_destroy (s : nat) : prog unit :=
    let! c := hget s 0 in do! kd_destroy st c in
    let! m := hget s 1 in do! kd_destroy mac m in
    let! m := hget s 2 in do! kd_destroy mac m in
    hfree s.
  (** eax2.c:178-183 *)
  Definition eax2_err1 (buf : nat) : prog nat := do! hfree buf in ret 0.
  Definition eax2_err2 (buf s : nat) : prog nat := do! hfree s in eax2_err1 buf.
  Definition eax2_err3 (buf s : nat) : prog nat := do! look s in eax2_err2 buf s.
  Definition eax2_err4 (buf s : nat) : prog nat := let! m := hget s 1 in do! kd_destroy mac m in eax2_err3 buf s.
  Definition eax2_err5 (buf s : nat) : prog nat := let! c := hget s 0 in do! kd_destroy st c in eax2_err4 buf s.
  (** eax2.c:108-177 *)
  Definition eax2_create : prog nat :=
    let! buf := halloc 0 in
    if buf =? 0 then ret 0 else
    let! s := halloc 3 in
    if s =? 0 then eax2_err1 buf else
    let! m := kd_create mac in
    do! hset s 1 m in
    if m =? 0 then eax2_err2 buf s else
    do! kd_use mac m in do! kd_use mac m in do! kd_tag mac m in
    let! m := kd_recreate mac m in
    do! hset s 1 m in
    if m =? 0 then eax2_err3 buf s else
    do! kd_use mac m in
    let! c := kd_create st in
    do! hset s 0 c in
    if c =? 0 then eax2_err4 buf s else
    let! m := kd_create mac in
    do! hset s 2 m in
    if m =? 0 then eax2_err5 buf s else
    do! kd_use mac m in
    do! hfree buf in
    ret s.
  (** eax2.c:257-264 *)
  Definition eax2_re0 (s : nat) : prog nat := do! look s in do! hfree s in ret 0.
  Definition eax2_re1 (buf s : nat) : prog nat := do! hfree buf in eax2_re0 s.
  Definition eax2_re2 (buf s : nat) : prog nat := let! m := hget s 1 in do! kd_destroy mac m in eax2_re1 buf s.
  Definition eax2_re3 (buf s : nat) : prog nat := let! c := hget s 0 in do! kd_destroy st c in eax2_re2 buf s.
  (** eax2.c:186-256; [longer] is "tag_len > s->len" *)
  Definition eax2_recreate (longer : bool) (s : nat) : prog nat :=
    do! look s in
    if longer then do! eax2_destroy s in eax2_create else
    let! buf := halloc 0 in
    if buf =? 0 then eax2_re0 s else
    let! m := hget s 1 in
    let! m := kd_recreate mac m in
    do! hset s 1 m in
    if m =? 0 then eax2_re1 buf s else
    do! kd_use mac m in do! kd_use mac m in do! kd_tag mac m in
    let! m := kd_recreate mac m in
    do! hset s 1 m in
    if m =? 0 then eax2_re1 buf s else
    do! kd_use mac m in
    let! c := hget s 0 in
    let! c := kd_recreate st c in
    do! hset s 0 c in
    if c =? 0 then eax2_re2 buf s else
    let! m := hget s 2 in
    let! m := kd_recreate mac m in
    do! hset s 2 m in
    if m =? 0 then eax2_re3 buf s else
    do! kd_use mac m in
    do! hfree buf in
    ret s.
  Definition eax2_kind (longer : bool) : kind := {| kd_create := eax2_create; kd_recreate := eax2_recreate longer; kd_use := eax2_use; kd_tag := eax2_tag; kd_destroy := eax2_destroy |}.
End Eax2.

(** ** Functions over MACs; [true] stands for 0, [false] for -1 *)
Section Macs.
  Variable mac : kind.
  (** mac.c:102-127 *)
  Definition mac_all : prog bool :=
    let! m := kd_create mac in
    if m =? 0 then ret false else
    do! kd_use mac m in do! kd_tag mac m in do! kd_destroy mac m in ret true.
  (** pbkdf2.c:76-85: line 78 looks at mac, which is never NULL, instead of m *)
  Fixpoint pbkdf2_iter (n : nat) (m : nat) : prog nat :=
    match n with
    | O => ret m
    | S n => let! m := kd_recreate mac m in do! kd_use mac m in do! kd_tag mac m in pbkdf2_iter n m
    end.
  (** pbkdf2.c:60-97, [blocks] times, [iter] iterations each; [false] is "goto err" *)
  Fixpoint pbkdf2_blocks (iter blocks : nat) (m : nat) : prog (nat * bool) :=
    match blocks with
    | O => ret (m, true)
    | S blocks =>
      do! kd_use mac m in do! kd_use mac m in do! kd_tag mac m in
      let! m := pbkdf2_iter (pred iter) m in
      match blocks with
      | O => ret (m, true)
      | S _ => let! m := kd_recreate mac m in if m =? 0 then ret (0, false) else pbkdf2_blocks iter blocks m
      end
    end.
  (** pbkdf2.c:44-114 *)
  Definition pbkdf2_heap (iter blocks : nat) : prog bool :=
    let! buf := halloc 0 in
    if buf =? 0 then ret false else
    let! m := kd_create mac in
    if m =? 0 then do! hfree buf in ret false else
    let! r := pbkdf2_blocks iter blocks m in
    if snd r then do! kd_destroy mac (fst r) in do! hfree buf in ret true
    else do! hfree buf in ret false.
  (** scrypt.c:218-266 *)
  Definition scrypt_heap (blocks1 blocks2 : nat) : prog bool :=
    let! b := halloc 0 in
    if b =? 0 then ret false else
    let! ok := pbkdf2_heap 1 blocks1 in
    if ok then let! ok := pbkdf2_heap 1 blocks2 in do! hfree b in ret ok
    else do! hfree b in ret false.
End Macs.

(** block/gost.c:204-222: the result of malloc is written to without a look; NullRet stands for the write to NULL *)
Definition gost_desc_heap : prog nat := let! d := halloc 0 in if d =? 0 then fun _ => Err NullRet else ret d.

(** ** random.c, portable.  The pointers: stream, mac. *)
Section Random.
  Variable mac : kind.
  (** random.c:88-151: s->mac is overwritten *)
  Definition rn_seed_heap (blocks1 blocks2 s : nat) : prog bool :=
    let! d := halloc 0 in
    do! hset s 1 d in
    if d =? 0 then ret false else
    let! ok := scrypt_heap mac blocks1 blocks2 in
    if ok then scrypt_heap mac blocks1 blocks2 else ret false.
  (** random.c:153-178 *)
  Definition rn_create_heap (blocks1 blocks2 : nat) : prog nat :=
    let! s := halloc 2 in
    if s =? 0 then ret 0 else
    let! ok := rn_seed_heap blocks1 blocks2 s in
    if ok then let! p := kd_create plain in do! hset s 0 p in if p =? 0 then do! hfree s in ret 0 else ret s
    else do! hfree s in ret 0.
  (** random.c:252-282 *)
  Definition rn_gen_heap (blocks1 blocks2 : nat) (reseed : bool) (s : nat) : prog nat :=
    let! p := hget s 0 in
    if reseed then
      do! kd_use plain p in
      let! ok := rn_seed_heap blocks1 blocks2 s in
      if ok then
        let! p := kd_recreate plain p in
        do! hset s 0 p in
        if p =? 0 then do! hfree s in ret 0 else do! kd_use plain p in ret s
      else do! hfree s in ret 0
    else do! kd_use plain p in ret s.
  (** random.c:302-306 *)
  Definition rn_destroy_heap (s : nat) : prog unit := let! p := hget s 0 in do! kd_destroy plain p in let! d := hget s 1 in do! hfree d in hfree s.
End Random.
