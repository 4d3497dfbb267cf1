(** lib/hash/skein{256,512,1024}.c, lib/mac/skein{256,512,1024}.c and lib/stream/skein{256,512,1024}.c.  The files of a
    kind differ only in the block size; they are one definition with the Threefish [p] as parameter.  Line numbers
    are those of the 256 bit files. *)
From Coq Require Import NArith Arith List Bool.
From Verif Require Import Lib.Word Lib.Res Lib.Bij Lib.Bytes Model.LoadStore Model.Mem Model.HashApi Model.MacApi Model.Md Model.BlockBuf Model.Threefish.
Import ListNotations.
Local Open Scope nat_scope.

(** POS_ADD, hash/skein256.c:44-62: the bytes 1..11 are incremented with carry, byte 11 must not become zero *)
Fixpoint pos_carry (l : list N) : res (list N) :=
  match l with
  | [] => Err AssertFail
  | b :: t => let b := byte (b + 1) in
      if (b =? 0)%N then let* t := pos_carry t in Ok (b :: t) else Ok (b :: t)
  end.
Definition pos_add (tw : list N) (add : nat) : res (list N) :=
  let t0 := byte (nth 0 tw 0%N + N.of_nat add) in
  let tw := upd tw 0 t0 in
  if (t0 <? N.of_nat add)%N then
    let* c := pos_carry (slice 1 11 tw) in Ok (firstn 1 tw ++ c ++ skipn 12 tw)
  else Ok tw.
(** tweak[15] = v; tweak[15] |= 0x80; tweak[15] &= 0xBF *)
Definition set15 (v : N) (tw : list N) : list N := upd tw 15 v.
Definition final15 (tw : list N) : list N := set15 (N.lor (nth 15 tw 0%N) 0x80) tw.
Definition notfirst15 (tw : list N) : list N := set15 (N.land (nth 15 tw 0%N) 0xBF) tw.
(** memset(tweak, 0, 12) *)
Definition zero12 (tw : list N) : list N := repeat 0%N 12 ++ skipn 12 tw.
(** min of the block size and what is left *)
Definition part (bs left : nat) : nat := if bs <? left then bs else left.

Section Skein.
  Variable p : tf_par.
  Definition sk_bs : nat := 8 * tf_n p.
  Let bs := sk_bs.
  (** skein256_process, hash/skein256.c:64-73, mac:64-73, stream:101-105: h and tweak are [fst a], [snd a].  The block
      object is made anew from h before every use, so it is no part of the state; Threefish does not free and
      allocate it again (Model/Threefish.v). *)
  Definition sk_process (r : N) (a : list N * list N) (buf : list N) : res (list N * list N) :=
    let* b := tf_create p r (fst a) in
    let* b := tf_tweak b (snd a) in
    let* c := tf_encrypt p b buf in
    Ok (map (fun i => N.lxor (nth i c 0%N) (nth i buf 0%N)) (seq 0 bs), snd a).

  (** The loop over salt, key or IV, hash/skein256.c:115-131, mac:94-112, stream:87-108, 134-155: the pointer is not moved
      and memset clears the beginning of buf, not what follows the copied bytes.  [left] is salt_len;
      [fuel] bounds the turns. *)
  Fixpoint sk_chunks (fuel : nat) (r : N) (src : list N) (left : nat) (s : bb (list N * list N)) : res (bb (list N * list N)) :=
    match fuel with
    | O => if left =? 0 then Ok s else Err Loops
    | S fuel =>
      if left =? 0 then Ok s else
      let len := part bs left in
      let buf := firstn len src ++ skipn len (bb_buf s) in
      let buf := repeat 0%N (bs - len) ++ skipn (bs - len) buf in
      let* tw := pos_add (snd (bb_a s)) len in
      let left := left - len in
      let tw := if left =? 0 then final15 tw else tw in
      let* s := bb_flush bs (sk_process r) {| bb_a := (fst (bb_a s), tw); bb_buf := buf; bb_i := bb_i s |} in
      sk_chunks fuel r src left {| bb_a := (fst (bb_a s), notfirst15 (snd (bb_a s))); bb_buf := bb_buf s; bb_i := bb_i s |}
    end.
  Definition sk_absorb (r : N) (src : list N) (s : bb (list N * list N)) : res (bb (list N * list N)) :=
    sk_chunks (length src) r src (length src) s.
  Definition sk_tw (f : list N -> list N) (s : bb (list N * list N)) : bb (list N * list N) :=
    {| bb_a := (fst (bb_a s), f (snd (bb_a s))); bb_buf := bb_buf s; bb_i := bb_i s |}.
  (** The configuration block: "SHA3", version, eight bytes of output length, zeros *)
  Definition sk_cfg_block (len8 : list N) : list N := [83; 72; 65; 51; 1; 0; 0; 0]%N ++ len8 ++ repeat 0%N (bs - 16).
  (** hash/skein256.c:96-109, mac:114-127, stream:110-129 *)
  Definition sk_cfg (r : N) (len8 : list N) (s : bb (list N * list N)) : res (bb (list N * list N)) :=
    bb_flush bs (sk_process r)
      {| bb_a := (fst (bb_a s), set15 0xC4 (upd (snd (bb_a s)) 0 32%N)); bb_buf := sk_cfg_block len8; bb_i := bb_i s |}.
  (** t = out_len << 3 on an unsigned int, STORE64L *)
  Definition sk_len8 (n : nat) : list N := store64l (mask 32 (8 * N.of_nat n)).
  (** hash/skein256.c:143-157, mac:136-154: one turn of the input loop on a full buffer *)
  Definition sk_step (r : N) (a : list N * list N) (buf : list N) : res (list N * list N) :=
    let* tw := pos_add (snd a) bs in
    let* a := sk_process r (fst a, tw) buf in
    Ok (fst a, set15 0x30 (snd a)).
  (** hash/skein256.c:163-167, mac:158-162: the last block *)
  Definition sk_last (r : N) (s : bb (list N * list N)) : res (bb (list N * list N)) :=
    let* tw := pos_add (snd (bb_a s)) (bb_i s) in
    let* s := bb_zeros bs bs {| bb_a := (fst (bb_a s), tw); bb_buf := bb_buf s; bb_i := bb_i s |} in
    bb_flush bs (sk_process r) (sk_tw final15 s).
  (** h = 0, tweak = 0, i = 0 in front of a buffer of unknown content *)
  Definition sk_start (buf : list N) : bb (list N * list N) :=
    {| bb_a := (repeat 0%N bs, repeat 0%N 16); bb_buf := buf; bb_i := 0 |}.

  (** * Hash: hash/skein256.c:31-42, [sk_out] is the unsigned int out_len *)
  Record skh := { sk_r : N; sk_out : N; sk_f : bool; sk_b : bb (list N * list N) }.
  (** hash/skein256.c:75-137; [buf] is the old content of buf *)
  Definition skh_start (buf : list N) (r : N) (salt : list N) (n : nat) : res skh :=
    let* s := sk_cfg r (sk_len8 n) (sk_start buf) in
    let* s := sk_absorb r salt (sk_tw (fun tw => set15 0x54 (upd tw 0 0%N)) s) in
    Ok {| sk_r := r; sk_out := mask 32 (N.of_nat n); sk_f := false; sk_b := sk_tw (fun tw => set15 0x70 (zero12 tw)) s |}.
  (** hash/skein256.c:194-216 *)
  Definition skh_create (r : N) (salt : list N) (n : nat) : res skh :=
    let* _ := tf_create p r [0%N] in skh_start [] r salt n.
  Definition skh_recreate (s : skh) (r : N) (salt : list N) (n : nat) : res skh := skh_start (bb_buf (sk_b s)) r salt n.
  (** hash/skein256.c:139-158 *)
  Definition skh_input (s : skh) (l : list N) : res skh :=
    let* b := bb_input bs (sk_step (sk_r s)) (sk_b s) l in
    Ok {| sk_r := sk_r s; sk_out := sk_out s; sk_f := sk_f s; sk_b := b |}.
  (** hash/skein256.c:162-174 *)
  Definition skh_finish (s : skh) : res skh :=
    let* b := sk_last (sk_r s) (sk_b s) in
    Ok {| sk_r := sk_r s; sk_out := sk_out s; sk_f := true;
          sk_b := {| bb_a := (fst (bb_a b), set15 0x7F (upd (zero12 (snd (bb_a b))) 0 8%N)); bb_buf := repeat 0%N bs; bb_i := bs |} |}.
  (** hash/skein256.c:180-188: the next block of output *)
  Definition skh_next (s : skh) : res skh :=
    let out := wsub 32 (sk_out s) (N.of_nat bs) in
    let* b := bb_flush bs (sk_process (sk_r s)) (if (out =? 0)%N then sk_tw final15 (sk_b s) else sk_b s) in
    let* tw := pos_add (notfirst15 (snd (bb_a b))) bs in
    Ok {| sk_r := sk_r s; sk_out := out; sk_f := sk_f s; sk_b := {| bb_a := (fst (bb_a b), tw); bb_buf := bb_buf b; bb_i := 0 |} |}.
  (** hash/skein256.c:178-191 *)
  Fixpoint skh_read (len : nat) (s : skh) : res (skh * list N) :=
    match len with
    | O => Ok (s, [])
    | S len =>
      let* s := if bb_i (sk_b s) =? bs then skh_next s else Ok s in
      let* b := get (fst (bb_a (sk_b s))) (bb_i (sk_b s)) in
      let* q := skh_read len {| sk_r := sk_r s; sk_out := sk_out s; sk_f := sk_f s;
        sk_b := {| bb_a := bb_a (sk_b s); bb_buf := bb_buf (sk_b s); bb_i := S (bb_i (sk_b s)) |} |} in
      Ok (fst q, b :: snd q)
    end.
  (** hash/skein256.c:160-192 *)
  Definition skh_output (s : skh) (len : nat) : res (skh * list N) :=
    let* s := if sk_f s then Ok s else skh_finish s in
    assert_ (N.of_nat len <=? sk_out s)%N (skh_read len s).
  (** hash/skein256.c:226-252: the object is on the stack, its buf not initialised *)
  Definition skh_all (r : N) (salt l : list N) (n : nat) : res (list N) :=
    let* s := skh_create r salt n in let* s := skh_input s l in let* q := skh_output s n in Ok (snd q).
  (** hash/skein256.c:254-265 *)
  Definition skein_hash : hash := {|
    hs_st := skh; hs_create := skh_create; hs_recreate := skh_recreate; hs_input := skh_input; hs_output := skh_output;
    hs_all := skh_all; hs_maxout := 0; hs_blocksize := bs; hs_maxsalt := 4294967295%N |}.

  (** * MAC: mac/skein256.c:32-42.  bb_i is the index in h once [skm_f] is set. *)
  Record skm := { skm_r : N; skm_f : bool; skm_b : bb (list N * list N) }.
  (** mac/skein256.c:75-134 *)
  Definition skm_start (buf : list N) (r : N) (key : list N) (n : nat) : res skm :=
    let* s := sk_absorb r key (sk_tw (set15 0x40) (sk_start buf)) in
    let* s := sk_cfg r (sk_len8 n) s in
    Ok {| skm_r := r; skm_f := false; skm_b := sk_tw (fun tw => set15 0x70 (upd tw 0 0%N)) s |}.
  (** mac/skein256.c:187-210 *)
  Definition skm_create (r : N) (key : list N) (n : nat) : res skm :=
    let* _ := tf_create p r [0%N] in skm_start [] r key n.
  Definition skm_recreate (s : skm) (r : N) (key : list N) (n : nat) : res skm := skm_start (bb_buf (skm_b s)) r key n.
  (** mac/skein256.c:136-157 *)
  Definition skm_input (s : skm) (l : list N) : res skm :=
    let* b := bb_input bs (sk_step (skm_r s)) (skm_b s) l in
    Ok {| skm_r := skm_r s; skm_f := skm_f s; skm_b := b |}.
  (** mac/skein256.c:159-175 *)
  Definition skm_finish (s : skm) : res skm :=
    let* b := sk_last (skm_r s) (skm_b s) in
    let* b := bb_flush bs (sk_process (skm_r s))
      {| bb_a := (fst (bb_a b), set15 0xFF (upd (zero12 (snd (bb_a b))) 0 8%N)); bb_buf := repeat 0%N bs; bb_i := bb_i b |} in
    Ok {| skm_r := skm_r s; skm_f := true; skm_b := b |}.
  (** mac/skein256.c:177-185 *)
  Definition skm_tag (s : skm) (len : nat) : res (skm * list N) :=
    let* s := if skm_f s then Ok s else skm_finish s in
    let b := skm_b s in
    assert_ (bb_i b + len <=? bs)
      (Ok ({| skm_r := skm_r s; skm_f := skm_f s; skm_b := {| bb_a := bb_a b; bb_buf := bb_buf b; bb_i := bb_i b + len |} |},
           slice (bb_i b) len (fst (bb_a b)))).
  (** mac/skein256.c:219-228 *)
  Definition skein_mac : mac := {|
    mc_st := skm; mc_create := skm_create; mc_recreate := skm_recreate; mc_input := skm_input; mc_tag := skm_tag;
    mc_maxtag := bs; mc_maxkey := 4294967295%N |}.

  (** * Stream cipher: stream/skein256.c:32-41 *)
  Record sks := { sks_block : threefish; sks_i : nat; sks_ctr : list N; sks_buf : list N }.
  (** stream/skein256.c:63-168; k and tweak are local *)
  Definition sks_start (buf : list N) (r : N) (key iv : list N) : res sks :=
    let* s := sk_absorb r key (sk_tw (set15 0x40) (sk_start buf)) in
    let* s := sk_cfg r (repeat 255%N 8) (sk_tw zero12 s) in
    let* s := sk_absorb r iv (sk_tw (fun tw => set15 0x54 (zero12 tw)) s) in
    let* b := tf_create p r (fst (bb_a s)) in
    let* b := tf_tweak b (set15 0xFF (upd (zero12 (snd (bb_a s))) 0 8%N)) in
    Ok {| sks_block := b; sks_i := 0; sks_ctr := repeat 0%N bs; sks_buf := bb_buf s |}.
  (** stream.c:41-44 *)
  Definition sks_args_ok (key iv : list N) : bool :=
    (0 <? length key) && (N.of_nat (length key) <=? 4294967295)%N && (N.of_nat (length iv) <=? 4294967295)%N.
  (** stream/skein256.c:238-262 *)
  Definition sks_create (r : N) (key iv : list N) : res sks :=
    assert_ (sks_args_ok key iv) (let* _ := tf_create p r [0%N] in sks_start [] r key iv).
  Definition sks_recreate (s : sks) (r : N) (key iv : list N) : res sks :=
    assert_ (sks_args_ok key iv) (sks_start (sks_buf s) r key iv).
  (** stream/skein256.c:182-201, 213-232: counter bytes 0..7, byte 7 must not become zero *)
  Definition sks_next (s : sks) : res sks :=
    let* c := tf_encrypt p (sks_block s) (sks_ctr s) in
    let* t := pos_carry (firstn 8 (sks_ctr s)) in
    Ok {| sks_block := sks_block s; sks_i := 0; sks_ctr := t ++ skipn 8 (sks_ctr s);
          sks_buf := map (fun i => N.lxor (nth i c 0%N) (nth i (sks_ctr s) 0%N)) (seq 0 bs) |}.
  Definition sks_gstep (s : sks) : res (sks * N) :=
    let* s := if sks_i s =? bs then sks_next s else Ok s in
    let* b := get (sks_buf s) (sks_i s) in
    Ok ({| sks_block := sks_block s; sks_i := S (sks_i s); sks_ctr := sks_ctr s; sks_buf := sks_buf s |}, b).
  Definition sks_step (s : sks) (b : N) : res (sks * N) := let* q := sks_gstep s in Ok (fst q, N.lxor b (snd q)).
  (** stream/skein256.c:170-205, 207-236 *)
  Definition sks_crypt (s : sks) (m : mem) (src dst len : nat) : res (sks * mem) := bloop sks_step src dst len (s, m).
  Definition sks_prng (s : sks) (m : mem) (dst len : nat) : res (sks * mem) := bloop0 sks_gstep dst len (s, m).
End Skein.
