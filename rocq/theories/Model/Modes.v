(** lib/stream/ecb.c, cbc.c, cfb.c, ofb.c, ctr.c and the asserts of lib/stream.c.
    Allocation failure is not in this model (see the life cycle model). *)
From Coq Require Import NArith Arith List Bool.
From Verif Require Import Lib.Word Lib.Res Model.BlockApi Model.Mem.
Import ListNotations.
Local Open Scope nat_scope.

(** stream.c:41-44 (create), 64-67 (recreate): key_len and iv_len asserts *)
Definition stream_args_ok (maxkey maxiv : nat) (key iv : list N) : bool :=
  (0 <? length key) && (length key <=? maxkey) && (length iv <=? maxiv).

(** "if(iv_len) memcpy(x, iv, iv_len); memset(x + iv_len, 0, blocksize - iv_len);" *)
Definition pad_iv (bs : nat) (iv : list N) : list N := iv ++ repeat 0%N (bs - length iv).

Section Modes.
  Variable c : bcipher.
  Let bs := bc_bs c.

  (** lib/block.c:80-106: block_encrypt(s, src, dst) and block_decrypt.  Every cipher of the
      library reads the whole input block before it stores the output block. *)
  Definition blk_op (f : list N -> res (list N)) (m : mem) (src dst : nat) : res mem :=
    let* y := f (rd m src bs) in Ok (wr m dst y).

  (** stream.c:84, 100: assert(len % multof == 0) *)
  Definition whole_blocks (len : nat) {A} (k : res A) : res A := assert_ (len mod bs =? 0) k.

  (** *** ECB *)
  (** ecb.c:27-33 *)
  Record ecb := { ecb_blk : bc_st c }.
  (** ecb.c:36-48; the loop runs once per block *)
  Definition ecb_encrypt (s : ecb) (m : mem) (src dst len : nat) : res mem :=
    whole_blocks len (mfor (len / bs) 0 (fun i m =>
      blk_op (bc_enc c (ecb_blk s)) m (src + i * bs) (dst + i * bs)) m).
  (** ecb.c:50-62 *)
  Definition ecb_decrypt (s : ecb) (m : mem) (src dst len : nat) : res mem :=
    whole_blocks len (mfor (len / bs) 0 (fun i m =>
      blk_op (bc_dec c (ecb_blk s)) m (src + i * bs) (dst + i * bs)) m).
  (** ecb.c:79-110 *)
  Definition ecb_create (r : N) (key iv : list N) : res ecb :=
    assert_ (stream_args_ok (bc_maxkey c) 0 key iv)
      (let* b := bc_create c r key in Ok {| ecb_blk := b |}).
  (** ecb.c:112-135 *)
  Definition ecb_recreate (s : ecb) (r : N) (key iv : list N) : res ecb :=
    assert_ (stream_args_ok (bc_maxkey c) 0 key iv)
      (let* b := bc_recreate c (ecb_blk s) r key in Ok {| ecb_blk := b |}).

  (** *** CBC *)
  (** cbc.c:27-35; buf is only used inside one turn of the decryption loop *)
  Record cbc := { cbc_blk : bc_st c; cbc_iv : list N }.
  (** cbc.c:38-62, one turn of the loop at block offset [o]: xor byte by byte into ct, encrypt ct in
      place, copy ct to iv *)
  Definition cbc_enc_turn (src dst o : nat) (sm : cbc * mem) : res (cbc * mem) :=
    let '(s, m) := sm in
    let m := pfor bs 0 (fun n m => wr1 m (dst + o + n) (N.lxor (m (src + o + n)) (nth n (cbc_iv s) 0%N))) m in
    let* m := blk_op (bc_enc c (cbc_blk s)) m (dst + o) (dst + o) in
    Ok ({| cbc_blk := cbc_blk s; cbc_iv := rd m (dst + o) bs |}, m).
  Definition cbc_encrypt (s : cbc) (m : mem) (src dst len : nat) : res (cbc * mem) :=
    whole_blocks len (mfor (len / bs) 0 (fun i => cbc_enc_turn src dst (i * bs)) (s, m)).
  (** cbc.c:64-91: copy ct to buf, decrypt, xor iv and move buf to iv *)
  Definition cbc_dec_turn (src dst o : nat) (sm : cbc * mem) : res (cbc * mem) :=
    let '(s, m) := sm in
    let buf := rd m (src + o) bs in
    let* m := blk_op (bc_dec c (cbc_blk s)) m (src + o) (dst + o) in
    let m := pfor bs 0 (fun n m => wr1 m (dst + o + n) (N.lxor (m (dst + o + n)) (nth n (cbc_iv s) 0%N))) m in
    Ok ({| cbc_blk := cbc_blk s; cbc_iv := buf |}, m).
  Definition cbc_decrypt (s : cbc) (m : mem) (src dst len : nat) : res (cbc * mem) :=
    whole_blocks len (mfor (len / bs) 0 (fun i => cbc_dec_turn src dst (i * bs)) (s, m)).
  (** cbc.c:108-141 *)
  Definition cbc_create (r : N) (key iv : list N) : res cbc :=
    assert_ (stream_args_ok (bc_maxkey c) bs key iv)
      (let* b := bc_create c r key in Ok {| cbc_blk := b; cbc_iv := pad_iv bs iv |}).
  (** cbc.c:143-167 *)
  Definition cbc_recreate (s : cbc) (r : N) (key iv : list N) : res cbc :=
    assert_ (stream_args_ok (bc_maxkey c) bs key iv)
      (let* b := bc_recreate c (cbc_blk s) r key in Ok {| cbc_blk := b; cbc_iv := pad_iv bs iv |}).

  (** *** CFB and OFB share the shape of the object (cfb.c:27-35, ofb.c:27-35) *)
  Record fb := { fb_blk : bc_st c; fb_prev : list N; fb_used : nat }.
  (** "if(s->used == s->blocksize) { block_encrypt(prev, prev); used = 0; }" cfb.c:50-54, ofb.c:50-54 *)
  Definition fb_refill (s : fb) : res fb :=
    if fb_used s =? bs then
      let* p := bc_enc c (fb_blk s) (fb_prev s) in
      Ok {| fb_blk := fb_blk s; fb_prev := p; fb_used := 0 |}
    else Ok s.
  (** cfb.c:48-57: ct[i] = prev[used++] ^= pt[i] *)
  Definition cfb_enc_step (s : fb) (b : N) : res (fb * N) :=
    let* s := fb_refill s in
    let* k := get (fb_prev s) (fb_used s) in
    let v := N.lxor k b in
    Ok ({| fb_blk := fb_blk s; fb_prev := upd (fb_prev s) (fb_used s) v; fb_used := S (fb_used s) |}, v).
  (** cfb.c:38-58 *)
  Definition cfb_encrypt (s : fb) (m : mem) (src dst len : nat) : res (fb * mem) :=
    bloop cfb_enc_step src dst len (s, m).
  (** cfb.c:70-80: the block cipher writes a whole block at the start of the output
      buffer, then pt[i] ^= ct[i] and prev[used++] = ct[i]. *)
  Definition cfb_dec_turn (src dst i : nat) (sm : fb * mem) : res (fb * mem) :=
    let '(s, m) := sm in
    let* p := (if fb_used s =? bs then
        let* y := bc_enc c (fb_blk s) (fb_prev s) in
        Ok ({| fb_blk := fb_blk s; fb_prev := fb_prev s; fb_used := 0 |}, wr m dst y)
      else Ok (s, m)) in
    let '(s, m) := p in
    let m := wr1 m (dst + i) (N.lxor (m (dst + i)) (m (src + i))) in
    let* pr := put (fb_prev s) (fb_used s) (m (src + i)) in
    Ok ({| fb_blk := fb_blk s; fb_prev := pr; fb_used := S (fb_used s) |}, m).
  (** cfb.c:60-81 *)
  Definition cfb_decrypt (s : fb) (m : mem) (src dst len : nat) : res (fb * mem) :=
    mfor len 0 (cfb_dec_turn src dst) (s, m).
  (** ofb.c:48-57: out[i] = in[i] ^ prev[used++] *)
  Definition ofb_step (s : fb) (b : N) : res (fb * N) :=
    let* s := fb_refill s in
    let* k := get (fb_prev s) (fb_used s) in
    Ok ({| fb_blk := fb_blk s; fb_prev := fb_prev s; fb_used := S (fb_used s) |}, N.lxor b k).
  (** ofb.c:38-58 *)
  Definition ofb_crypt (s : fb) (m : mem) (src dst len : nat) : res (fb * mem) :=
    bloop ofb_step src dst len (s, m).
  (** ofb.c:69-78 and cfb.c:92-101: out[i] = prev[used++] *)
  Definition fb_prng_step (s : fb) : res (fb * N) :=
    let* s := fb_refill s in
    let* k := get (fb_prev s) (fb_used s) in
    Ok ({| fb_blk := fb_blk s; fb_prev := fb_prev s; fb_used := S (fb_used s) |}, k).
  (** ofb.c:60-79, cfb.c:83-102 *)
  Definition fb_prng (s : fb) (m : mem) (dst len : nat) : res (fb * mem) := bloop0 fb_prng_step dst len (s, m).
  (** cfb.c:119-153, ofb.c:96-130 *)
  Definition fb_create (r : N) (key iv : list N) : res fb :=
    assert_ (stream_args_ok (bc_maxkey c) bs key iv)
      (let* b := bc_create c r key in Ok {| fb_blk := b; fb_prev := pad_iv bs iv; fb_used := bs |}).
  (** cfb.c:155-180, ofb.c:132-157 *)
  Definition fb_recreate (s : fb) (r : N) (key iv : list N) : res fb :=
    assert_ (stream_args_ok (bc_maxkey c) bs key iv)
      (let* b := bc_recreate c (fb_blk s) r key in Ok {| fb_blk := b; fb_prev := pad_iv bs iv; fb_used := bs |}).

  (** *** CTR *)
  (** ctr.c:27-36; buf holds nothing before the first refill (malloc memory): [] here, so
      that reading it early would be an error. *)
  Record ctr := { ctr_blk : bc_st c; ctr_x : list N; ctr_buf : list N; ctr_used : nat }.
  (** ctr.c:57-58: for(n = blocksize - 1; n; n--) if(++x[n]) break; *)
  Fixpoint ctr_inc (n : nat) (x : list N) : list N :=
    match n with
    | O => x
    | S n' =>
        let v := byte (nth n x 0 + 1)%N in
        let x := upd x n v in
        if (v =? 0)%N then ctr_inc n' x else x
    end.
  (** ctr.c:52-59 *)
  Definition ctr_refill (s : ctr) : res ctr :=
    if ctr_used s =? bs then
      let* y := bc_enc c (ctr_blk s) (ctr_x s) in
      Ok {| ctr_blk := ctr_blk s; ctr_x := ctr_inc (bs - 1) (ctr_x s); ctr_buf := y; ctr_used := 0 |}
    else Ok s.
  Definition ctr_step (s : ctr) (b : N) : res (ctr * N) :=
    let* s := ctr_refill s in
    let* k := get (ctr_buf s) (ctr_used s) in
    Ok ({| ctr_blk := ctr_blk s; ctr_x := ctr_x s; ctr_buf := ctr_buf s; ctr_used := S (ctr_used s) |}, N.lxor b k).
  (** ctr.c:39-63 *)
  Definition ctr_crypt (s : ctr) (m : mem) (src dst len : nat) : res (ctr * mem) :=
    bloop ctr_step src dst len (s, m).
  (** ctr.c:65-88 *)
  Definition ctr_prng_step (s : ctr) : res (ctr * N) :=
    let* s := ctr_refill s in
    let* k := get (ctr_buf s) (ctr_used s) in
    Ok ({| ctr_blk := ctr_blk s; ctr_x := ctr_x s; ctr_buf := ctr_buf s; ctr_used := S (ctr_used s) |}, k).
  Definition ctr_prng (s : ctr) (m : mem) (dst len : nat) : res (ctr * mem) := bloop0 ctr_prng_step dst len (s, m).
  (** ctr.c:105-140 *)
  Definition ctr_create (r : N) (key iv : list N) : res ctr :=
    assert_ (stream_args_ok (bc_maxkey c) bs key iv)
      (let* b := bc_create c r key in
       Ok {| ctr_blk := b; ctr_x := pad_iv bs iv; ctr_buf := []; ctr_used := bs |}).
  (** ctr.c:142-168; the old buf stays but is not read before the next refill *)
  Definition ctr_recreate (s : ctr) (r : N) (key iv : list N) : res ctr :=
    assert_ (stream_args_ok (bc_maxkey c) bs key iv)
      (let* b := bc_recreate c (ctr_blk s) r key in
       Ok {| ctr_blk := b; ctr_x := pad_iv bs iv; ctr_buf := ctr_buf s; ctr_used := bs |}).
End Modes.
