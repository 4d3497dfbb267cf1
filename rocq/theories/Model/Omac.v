(** lib/mac/omac.c and lib/mac/xcbc.c: MACs from the CBC mode of a block cipher.
    The allocation of the object is not modelled; [om_buf] is the initialised part of buf (malloc leaves it unwritten). *)
From Coq Require Import NArith Arith List Bool.
From Verif Require Import Lib.Word Lib.Res Model.BlockApi Model.MacApi Model.Md.
Import ListNotations.
Local Open Scope N_scope.

(** omac.c:46-304: static const uint8_t poly[256][6] *)
Definition omac_poly : list (list N) :=
  [[0; 0; 0; 0; 0; 0]; [0; 0; 0; 0; 0; 27]; [0; 0; 0; 0; 0; 43]; [0; 0; 0; 0; 0; 27]; [0; 0; 0; 0; 0; 141]; [0; 0; 0; 0; 0; 57];
   [0; 0; 0; 0; 0; 45]; [0; 0; 0; 0; 0; 149]; [0; 0; 0; 0; 0; 27]; [0; 0; 0; 0; 6; 9]; [0; 0; 0; 0; 2; 21]; [0; 0; 0; 0; 0; 197];
   [0; 0; 0; 0; 6; 65]; [0; 0; 0; 0; 0; 27]; [0; 0; 0; 0; 0; 57]; [0; 0; 0; 0; 0; 27]; [0; 0; 0; 0; 0; 135]; [0; 0; 0; 0; 0; 45];
   [0; 0; 0; 0; 0; 149]; [0; 0; 0; 0; 0; 77]; [0; 0; 0; 0; 0; 45]; [0; 0; 0; 0; 128; 13]; [0; 0; 0; 0; 8; 13]; [0; 0; 0; 0; 3; 129];
   [0; 0; 0; 0; 0; 135]; [0; 0; 0; 0; 0; 45]; [0; 0; 0; 0; 2; 11]; [0; 0; 0; 0; 0; 139]; [0; 0; 0; 0; 3; 9]; [0; 0; 0; 0; 2; 21];
   [0; 0; 0; 0; 1; 41]; [0; 0; 0; 0; 196; 1]; [0; 0; 0; 0; 4; 37]; [0; 0; 0; 0; 9; 69]; [0; 0; 0; 0; 2; 13]; [0; 0; 0; 0; 2; 37];
   [0; 0; 0; 0; 12; 3]; [0; 0; 0; 0; 0; 141]; [0; 0; 0; 0; 8; 7]; [0; 0; 0; 0; 2; 145]; [0; 0; 0; 0; 0; 27]; [0; 0; 0; 0; 1; 11];
   [0; 0; 0; 0; 0; 147]; [0; 0; 0; 0; 0; 135]; [0; 0; 0; 0; 40; 65]; [0; 0; 0; 0; 0; 45]; [0; 0; 0; 0; 0; 141]; [0; 0; 0; 0; 1; 161];
   [0; 0; 0; 0; 16; 13]; [0; 0; 0; 0; 36; 65]; [0; 0; 0; 0; 0; 45]; [0; 0; 0; 0; 0; 45]; [0; 0; 0; 0; 2; 37]; [0; 0; 0; 0; 2; 133];
   [0; 0; 0; 0; 32; 25]; [0; 0; 0; 0; 0; 27]; [0; 0; 0; 0; 8; 81]; [0; 0; 0; 4; 2; 65]; [0; 0; 0; 12; 32; 1]; [0; 0; 0; 0; 8; 13];
   [0; 0; 0; 0; 130; 65]; [0; 0; 0; 0; 0; 27]; [0; 0; 0; 1; 0; 37]; [0; 0; 0; 0; 192; 65]; [0; 0; 0; 0; 1; 37]; [0; 0; 0; 0; 136; 5];
   [0; 0; 0; 0; 8; 69]; [0; 0; 0; 0; 0; 169]; [0; 0; 0; 0; 1; 11]; [0; 0; 0; 9; 2; 1]; [0; 0; 0; 0; 10; 65]; [0; 0; 0; 0; 128; 193];
   [0; 0; 0; 0; 32; 25]; [0; 0; 0; 0; 96; 9]; [0; 0; 0; 0; 32; 73]; [0; 0; 0; 0; 2; 37]; [0; 0; 0; 8; 32; 65]; [0; 0; 0; 8; 4; 9];
   [0; 0; 0; 0; 8; 97]; [0; 0; 0; 0; 2; 7]; [0; 0; 0; 0; 64; 13]; [0; 0; 0; 0; 32; 11]; [0; 0; 0; 0; 0; 177]; [0; 0; 0; 0; 11; 1];
   [0; 0; 0; 0; 8; 97]; [0; 0; 0; 129; 2; 1]; [0; 0; 0; 8; 64; 65]; [0; 0; 0; 128; 4; 5]; [0; 0; 0; 0; 1; 13]; [0; 0; 0; 0; 0; 57];
   [0; 0; 0; 0; 2; 81]; [0; 0; 0; 0; 0; 29]; [0; 0; 0; 0; 33; 65]; [0; 0; 0; 0; 40; 3]; [0; 0; 0; 0; 36; 9]; [0; 0; 0; 0; 8; 97];
   [0; 0; 0; 10; 0; 17]; [0; 0; 0; 0; 192; 129]; [0; 0; 0; 0; 34; 65]; [0; 0; 0; 0; 2; 137]; [0; 0; 0; 0; 2; 131]; [0; 0; 0; 0; 64; 13];
   [0; 0; 0; 0; 9; 5]; [0; 0; 0; 0; 8; 81]; [0; 0; 0; 0; 32; 37]; [0; 0; 0; 0; 8; 35]; [0; 0; 0; 0; 8; 19]; [0; 0; 0; 8; 4; 9];
   [0; 0; 0; 32; 4; 65]; [0; 0; 0; 0; 32; 11]; [0; 0; 0; 0; 128; 161]; [0; 0; 0; 12; 4; 1]; [0; 0; 0; 0; 0; 169]; [0; 0; 0; 0; 16; 133];
   [0; 0; 0; 0; 0; 163]; [0; 0; 0; 0; 66; 65]; [0; 0; 0; 0; 4; 13]; [0; 0; 0; 0; 176; 1]; [0; 0; 0; 0; 26; 1]; [0; 0; 0; 1; 2; 129];
   [0; 0; 0; 0; 18; 9]; [0; 0; 0; 0; 2; 37]; [0; 0; 0; 2; 4; 65]; [0; 0; 1; 0; 2; 9]; [0; 0; 0; 2; 160; 1]; [0; 0; 0; 0; 0; 57];
   [0; 0; 0; 10; 1; 1]; [0; 0; 0; 0; 128; 73]; [0; 0; 0; 8; 0; 67]; [0; 0; 0; 32; 128; 9]; [0; 0; 0; 0; 133; 1]; [0; 0; 0; 0; 128; 133];
   [0; 0; 0; 0; 8; 7]; [0; 0; 0; 0; 42; 1]; [0; 0; 0; 8; 3; 1]; [0; 0; 0; 0; 130; 65]; [0; 0; 0; 96; 4; 1]; [0; 0; 1; 0; 128; 65];
   [0; 0; 0; 32; 2; 65]; [0; 0; 0; 0; 129; 65]; [0; 0; 0; 0; 34; 65]; [0; 0; 0; 0; 0; 139]; [0; 0; 0; 0; 2; 21]; [0; 0; 0; 0; 10; 129];
   [0; 0; 0; 0; 128; 13]; [0; 0; 0; 0; 136; 5]; [0; 0; 0; 0; 16; 133]; [0; 0; 0; 0; 10; 9]; [0; 0; 0; 0; 0; 45]; [0; 0; 0; 0; 3; 129];
   [0; 0; 0; 0; 130; 65]; [0; 0; 0; 0; 12; 65]; [0; 0; 10; 0; 2; 1]; [0; 0; 0; 0; 18; 129]; [0; 0; 2; 0; 4; 5]; [0; 0; 0; 2; 0; 161];
   [0; 0; 0; 0; 128; 41]; [0; 0; 192; 0; 0; 5]; [0; 0; 0; 0; 0; 45]; [0; 0; 0; 1; 2; 129]; [0; 0; 0; 0; 16; 161]; [0; 0; 0; 129; 0; 65];
   [0; 0; 0; 0; 192; 5]; [0; 0; 0; 18; 128; 1]; [0; 0; 0; 0; 192; 5]; [0; 0; 0; 0; 18; 9]; [0; 0; 0; 32; 8; 9]; [0; 0; 0; 0; 1; 13];
   [0; 0; 0; 0; 128; 67]; [0; 0; 0; 2; 64; 65]; [0; 0; 0; 0; 0; 45]; [0; 0; 0; 0; 130; 33]; [0; 0; 0; 12; 4; 1]; [0; 0; 0; 0; 8; 35];
   [0; 0; 0; 2; 128; 33]; [0; 0; 0; 0; 1; 11]; [0; 0; 0; 0; 96; 65]; [0; 0; 0; 0; 6; 65]; [0; 0; 0; 0; 8; 69]; [0; 0; 0; 0; 12; 65];
   [0; 0; 0; 0; 96; 129]; [0; 0; 0; 0; 8; 13]; [0; 0; 0; 0; 2; 21]; [0; 0; 0; 0; 18; 9]; [0; 0; 0; 0; 8; 19]; [0; 0; 0; 0; 12; 5];
   [0; 0; 0; 0; 3; 65]; [0; 0; 0; 0; 40; 17]; [0; 0; 0; 0; 1; 13]; [0; 0; 0; 0; 6; 9]; [0; 0; 0; 0; 36; 9]; [0; 0; 0; 6; 0; 129];
   [0; 0; 0; 32; 0; 69]; [0; 0; 0; 0; 8; 131]; [0; 0; 0; 8; 16; 5]; [0; 0; 0; 0; 1; 37]; [0; 0; 0; 32; 4; 129]; [0; 0; 0; 16; 2; 5];
   [0; 0; 0; 40; 32; 1]; [0; 0; 0; 0; 16; 161]; [0; 0; 0; 0; 72; 3]; [0; 0; 0; 0; 160; 3]; [0; 0; 0; 0; 32; 25]; [0; 0; 0; 0; 40; 33];
   [0; 0; 0; 2; 128; 9]; [0; 0; 0; 0; 0; 163]; [0; 0; 0; 4; 32; 3]; [0; 0; 0; 8; 129; 1]; [0; 0; 0; 2; 2; 65]; [0; 0; 0; 0; 0; 57];
   [0; 0; 0; 0; 8; 69]; [0; 0; 0; 0; 129; 65]; [0; 0; 0; 0; 128; 73]; [0; 0; 0; 0; 72; 9]; [0; 0; 0; 0; 144; 33]; [0; 0; 0; 2; 68; 1];
   [0; 0; 0; 0; 12; 33]; [0; 0; 0; 8; 64; 65]; [0; 0; 0; 12; 0; 5]; [0; 0; 0; 0; 0; 77]; [0; 0; 0; 0; 1; 13]; [0; 0; 2; 0; 0; 97];
   [0; 0; 0; 0; 6; 9]; [0; 0; 0; 160; 0; 65]; [0; 0; 0; 2; 64; 9]; [0; 0; 0; 64; 0; 37]; [0; 0; 0; 9; 2; 1]; [0; 0; 0; 132; 0; 3];
   [0; 0; 0; 0; 0; 163]; [0; 0; 0; 4; 32; 129]; [0; 0; 0; 32; 4; 5]; [0; 0; 0; 1; 32; 9]; [0; 0; 0; 0; 10; 17]; [0; 0; 0; 0; 10; 3];
   [0; 0; 0; 0; 4; 37]; [0; 0; 0; 0; 128; 21]; [0; 0; 0; 2; 32; 5]; [0; 0; 4; 0; 8; 5]; [0; 0; 0; 0; 24; 3]; [0; 0; 0; 16; 132; 1];
   [0; 0; 0; 0; 8; 13]; [0; 0; 0; 3; 0; 129]; [0; 0; 0; 0; 132; 3]; [0; 0; 8; 68; 0; 1]; [0; 0; 0; 0; 192; 65]; [0; 0; 0; 2; 128; 5];
   [0; 0; 2; 8; 64; 1]; [0; 0; 2; 10; 0; 1]; [0; 0; 0; 0; 40; 33]; [0; 0; 0; 0; 0; 77]; [0; 0; 0; 0; 36; 65]; [0; 0; 4; 128; 32; 1];
   [0; 0; 0; 32; 128; 129]; [1; 8; 0; 0; 2; 1]; [0; 0; 0; 0; 0; 197]; [0; 0; 0; 0; 0; 135]].

(** l[i] ^= v *)
Definition xor_at (i : nat) (v : N) (l : list N) : list N := upd l i (N.lxor (nth i l 0) v).
(** omac.c:318-321, 342-345: the shift of the whole string by one bit (the loop reads l[i + 1] before it is written) *)
Definition omac_shift (l : list N) : list N :=
  map (fun i => N.lor (byte (N.shiftl (nth i l 0) 1)) (N.shiftr (nth (S i) l 0) 7)) (seq 0 (length l)).
(** omac.c:323-334, 347-358: the exclusive ors with poly[len] *)
Definition omac_reduce (len : nat) (l : list N) : list N :=
  let p := nth len omac_poly [] in
  let l := if (8 <=? len)%nat
    then xor_at (len - 2) (nth 4 p 0) (xor_at (len - 3) (nth 3 p 0) (xor_at (len - 2) (nth 2 p 0) (xor_at (len - 3) (nth 1 p 0) (xor_at (len - 4) (nth 0 p 0) l))))
    else l in
  xor_at (len - 1) (nth 5 p 0) l.
(** omac.c:315-334, 337-358 *)
Definition omac_double (len : nat) (l : list N) : list N :=
  let s := omac_shift l in if N.shiftr (nth 0 l 0) 7 =? 0 then s else omac_reduce len s.
(** the loop "tag[i] = buf[s->i++]" *)
Fixpoint reads (l : list N) (i n : nat) : res (list N) :=
  match n with O => Ok [] | S n' => let* a := get l i in let* t := reads l (S i) n' in Ok (a :: t) end.
(** s->i + len <= s->len in unsigned int *)
Definition room32 (i n len : nat) : bool := N.of_nat (i + n) mod 2 ^ 32 <=? N.of_nat len.
(** kripto_block_encrypt on a buffer of the object: every byte must have been written *)
Definition enc_buf (c : bcipher) (s : bc_st c) (buf : list N) : res (list N) :=
  if (length buf <? bc_bs c)%nat then Err Uninit else bc_enc c s (firstn (bc_bs c) buf).

Section Omac.
  Variable c : bcipher.
  Let len := bc_bs c.
  (** omac.c:29-40 *)
  Record omac := { om_block : bc_st c; om_lu : list N; om_lu2 : list N; om_prev : list N; om_buf : list N; om_i : nat; om_f : bool }.
  (** omac.c:307-363; [buf] is left as it was *)
  Definition omac_init (b : bc_st c) (buf : list N) : res omac :=
    let* l := bc_enc c b (repeat 0 len) in
    let lu := omac_double len l in
    Ok {| om_block := b; om_lu := lu; om_lu2 := omac_double len lu; om_prev := repeat 0 len; om_buf := buf; om_i := 0; om_f := false |}.
  (** omac.c:439-470: create *)
  Definition omac_create (r : N) (key : list N) (n : nat) : res omac := let* b := bc_create c r key in omac_init b [].
  (** omac.c:472-494: recreate *)
  Definition omac_recreate (s : omac) (r : N) (key : list N) (n : nat) : res omac :=
    let* b := bc_recreate c (om_block s) r key in omac_init b (om_buf s).
  (** omac.c:365-380, one byte *)
  Definition omac_byte (s : omac) (x : N) : res omac :=
    let* s := if (om_i s =? len)%nat
      then let* p := enc_buf c (om_block s) (om_buf s) in
           Ok {| om_block := om_block s; om_lu := om_lu s; om_lu2 := om_lu2 s; om_prev := p; om_buf := om_buf s; om_i := 0; om_f := om_f s |}
      else Ok s in
    let* k := get (om_prev s) (om_i s) in
    let* b := bput len (om_buf s) (om_i s) (N.lxor k x) in
    Ok {| om_block := om_block s; om_lu := om_lu s; om_lu2 := om_lu2 s; om_prev := om_prev s; om_buf := b; om_i := S (om_i s); om_f := om_f s |}.
  Fixpoint omac_input (s : omac) (l : list N) : res omac :=
    match l with [] => Ok s | x :: t => let* s := omac_byte s x in omac_input s t end.
  Definition xor_list (a b : list N) : list N := map (fun p => N.lxor (fst p) (snd p)) (combine a b).
  (** omac.c:386-414 *)
  Definition omac_finish (s : omac) : res omac :=
    let b := if (om_i s =? len)%nat then xor_list (om_buf s) (om_lu s)
      else xor_list (firstn (om_i s) (om_buf s) ++ [N.lxor 0x80 (nth (om_i s) (om_prev s) 0)] ++ skipn (S (om_i s)) (om_prev s)) (om_lu2 s) in
    let* b := enc_buf c (om_block s) b in
    Ok {| om_block := om_block s; om_lu := om_lu s; om_lu2 := om_lu2 s; om_prev := om_prev s; om_buf := b; om_i := 0; om_f := true |}.
  (** omac.c:382-423 *)
  Definition omac_tag (s : omac) (n : nat) : res (omac * list N) :=
    let* s := if om_f s then Ok s else omac_finish s in
    assert_ (room32 (om_i s) n len)
      (let* t := reads (om_buf s) (om_i s) n in
       Ok ({| om_block := om_block s; om_lu := om_lu s; om_lu2 := om_lu2 s; om_prev := om_prev s; om_buf := om_buf s; om_i := om_i s + n; om_f := om_f s |}, t)).
  (** omac.c:496-512 *)
  Definition omac_desc : mac := {|
    mc_st := omac; mc_create := omac_create; mc_recreate := omac_recreate; mc_input := omac_input; mc_tag := omac_tag;
    mc_maxtag := len; mc_maxkey := N.of_nat (bc_maxkey c) |}.
End Omac.

Section Xcbc.
  Variable c : bcipher.
  Let len := bc_bs c.
  (** xcbc.c:29-39 *)
  Record xcbc := { xc_block : bc_st c; xc_buf : list N; xc_k2 : list N; xc_k3 : list N; xc_i : nat; xc_f : bool }.
  (** xcbc.c:41-64 *)
  Definition xcbc_init (b : bc_st c) (r : N) : res xcbc :=
    let* k1 := bc_enc c b (repeat 1 len) in
    let* k2 := bc_enc c b (repeat 2 len) in
    let* k3 := bc_enc c b (repeat 3 len) in
    let* b := bc_recreate c b r k1 in
    Ok {| xc_block := b; xc_buf := repeat 0 len; xc_k2 := k2; xc_k3 := k3; xc_i := 0; xc_f := false |}.
  (** xcbc.c:128-161 *)
  Definition xcbc_create (r : N) (key : list N) (n : nat) : res xcbc := let* b := bc_create c r key in xcbc_init b r.
  (** xcbc.c:163-189 *)
  Definition xcbc_recreate (s : xcbc) (r : N) (key : list N) (n : nat) : res xcbc :=
    let* b := bc_recreate c (xc_block s) r key in xcbc_init b r.
  (** xcbc.c:66-80, one byte; [xc_i] is at most [len] *)
  Definition xcbc_byte (s : xcbc) (x : N) : res xcbc :=
    let* s := if (xc_i s =? len)%nat
      then let* b := bc_enc c (xc_block s) (xc_buf s) in
           Ok {| xc_block := xc_block s; xc_buf := b; xc_k2 := xc_k2 s; xc_k3 := xc_k3 s; xc_i := 0; xc_f := xc_f s |}
      else Ok s in
    let* k := get (xc_buf s) (xc_i s) in
    Ok {| xc_block := xc_block s; xc_buf := upd (xc_buf s) (xc_i s) (N.lxor k x); xc_k2 := xc_k2 s; xc_k3 := xc_k3 s; xc_i := S (xc_i s); xc_f := xc_f s |}.
  Fixpoint xcbc_input (s : xcbc) (l : list N) : res xcbc :=
    match l with [] => Ok s | x :: t => let* s := xcbc_byte s x in xcbc_input s t end.
  (** xcbc.c:86-109 *)
  Definition xcbc_finish (s : xcbc) : res xcbc :=
    let b := if (xc_i s =? len)%nat then xor_list (xc_buf s) (xc_k2 s) else xor_list (xor_at (xc_i s) 0x80 (xc_buf s)) (xc_k3 s) in
    let* b := bc_enc c (xc_block s) b in
    Ok {| xc_block := xc_block s; xc_buf := b; xc_k2 := xc_k2 s; xc_k3 := xc_k3 s; xc_i := 0; xc_f := true |}.
  (** xcbc.c:82-117 *)
  Definition xcbc_tag (s : xcbc) (n : nat) : res (xcbc * list N) :=
    let* s := if xc_f s then Ok s else xcbc_finish s in
    assert_ (room32 (xc_i s) n len)
      (let* t := reads (xc_buf s) (xc_i s) n in
       Ok ({| xc_block := xc_block s; xc_buf := xc_buf s; xc_k2 := xc_k2 s; xc_k3 := xc_k3 s; xc_i := xc_i s + n; xc_f := xc_f s |}, t)).
  (** xcbc.c:191-210 *)
  Definition xcbc_desc : mac := {|
    mc_st := xcbc; mc_create := xcbc_create; mc_recreate := xcbc_recreate; mc_input := xcbc_input; mc_tag := xcbc_tag;
    mc_maxtag := len; mc_maxkey := N.of_nat (bc_maxkey c) |}.
End Xcbc.
