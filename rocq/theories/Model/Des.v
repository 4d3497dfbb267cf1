(** lib/block/des.c *)
From Coq Require Import NArith Arith List Bool.
From Verif Require Import Lib.Word Lib.Res Model.LoadStore Model.BlockApi Model.Table Lib.Bytes.
Import ListNotations.
Local Open Scope N_scope.

(** des.c:43-49: the three encryption and the three decryption key schedules.  Only the
    schedules in use are kept: one, or three when tdes is set. *)
Record des := { des_ek : list (list N); des_dk : list (list N) }.

(** des.c:51-64: bytebit[m] is the bit 7 - m, bigbyte[j] is the bit 23 - j *)
Definition des_bytebit (m : N) : N := 7 - m.
(** des.c:66-72 *)
Definition des_pc1 : list N :=
  [56; 48; 40; 32; 24; 16; 8; 0; 57; 49; 41; 33; 25; 17;
   9; 1; 58; 50; 42; 34; 26; 18; 10; 2; 59; 51; 43; 35;
   62; 54; 46; 38; 30; 22; 14; 6; 61; 53; 45; 37; 29; 21;
   13; 5; 60; 52; 44; 36; 28; 20; 12; 4; 27; 19; 11; 3].

(** des.c:74-80 *)
Definition des_pc2 : list N :=
  [13; 16; 10; 23; 0; 4; 2; 27; 14; 5; 20; 9;
   22; 18; 11; 3; 25; 7; 15; 6; 26; 19; 12; 1;
   40; 51; 30; 36; 46; 54; 29; 39; 50; 44; 32; 47;
   43; 48; 38; 55; 33; 52; 45; 41; 49; 35; 28; 31].

(** des.c:82-85 *)
Definition des_totrot : list N :=
  [1; 2; 4; 6; 8; 10; 12; 14; 15; 17; 19; 21; 23; 25; 27; 28].

(** des.c:104-105: a part of the key, zero padded to eight bytes *)
Definition des_part (key : list N) (o : nat) : list N := map (fun i => nth (o + i) key 0) (seq 0 8).
(** des.c:107-112: pc1m, a list of 56 bits *)
Definition des_pc1m (key : list N) : list bool :=
  map (fun l => N.testbit (nth (N.to_nat (l / 8)) key 0) (des_bytebit (l mod 8))) des_pc1.
(** des.c:122-134: pcr for round i, both halves rotated by totrot[i] *)
Definition des_pcr (c : list bool) (i : nat) : list bool :=
  let t := N.to_nat (nth i des_totrot 0) in
  map (fun j => let l := (j + t)%nat in
    nth (if (j <? 28)%nat then (if (l <? 28)%nat then l else l - 28)%nat
         else (if (l <? 56)%nat then l else l - 28)%nat) c false) (seq 0 56).
(** des.c:136-140: 24 bits selected by pc2 from position o, the first is bit 23 *)
Definition des_kn (p : list bool) (o : nat) : N :=
  fold_left (fun v j => if nth (N.to_nat (nth (o + j) des_pc2 0)) p false
    then N.lor v (N.shiftl 1 (23 - N.of_nat j)) else v) (seq 0 24) 0.
(** des.c:143-156: the two words of a round from the two 24-bit words *)
Definition des_cook (a b : N) : list N :=
  [N.lor (N.lor (N.lor (wshl 32 (N.land a 0x00FC0000) 6) (wshl 32 (N.land a 0x00000FC0) 10))
     (wshr (N.land b 0x00FC0000) 10)) (wshr (N.land b 0x00000FC0) 6);
   N.lor (N.lor (N.lor (wshl 32 (N.land a 0x0003F000) 12) (wshl 32 (N.land a 0x0000003F) 16))
     (wshr (N.land b 0x0003F000) 4)) (N.land b 0x0000003F)].
(** des.c:87-163.  The loop over i stores round i at the places 2 i, 2 i + 1, or counted
    from the end when decrypting; the model lists the rounds by place. *)
Definition des_key (dec : bool) (key : list N) : list N :=
  let c := des_pc1m key in
  flat_map (fun q => let p := des_pcr c (if dec then 15 - q else q) in des_cook (des_kn p 0) (des_kn p 24)) (seq 0 16).

(** des.c:165-203 *)
Definition des_setup (key : list N) : des :=
  let k i := des_part key (8 * i) in
  if (16 <? length key)%nat then
    {| des_ek := [des_key false (k 0%nat); des_key true (k 1%nat); des_key false (k 2%nat)];
       des_dk := [des_key true (k 2%nat); des_key false (k 1%nat); des_key true (k 0%nat)] |}
  else if (8 <? length key)%nat then
    {| des_ek := [des_key false (k 0%nat); des_key true (k 1%nat); des_key false (k 0%nat)];
       des_dk := [des_key true (k 0%nat); des_key false (k 1%nat); des_key true (k 0%nat)] |}
  else {| des_ek := [des_key false (k 0%nat)]; des_dk := [des_key true (k 0%nat)] |}.

(** des.c:205-223 *)
Definition des_sp1 : list N :=
  [0x01010400; 0x00000000; 0x00010000; 0x01010404; 0x01010004; 0x00010404; 0x00000004; 0x00010000;
   0x00000400; 0x01010400; 0x01010404; 0x00000400; 0x01000404; 0x01010004; 0x01000000; 0x00000004;
   0x00000404; 0x01000400; 0x01000400; 0x00010400; 0x00010400; 0x01010000; 0x01010000; 0x01000404;
   0x00010004; 0x01000004; 0x01000004; 0x00010004; 0x00000000; 0x00000404; 0x00010404; 0x01000000;
   0x00010000; 0x01010404; 0x00000004; 0x01010000; 0x01010400; 0x01000000; 0x01000000; 0x00000400;
   0x01010004; 0x00010000; 0x00010400; 0x01000004; 0x00000400; 0x00000004; 0x01000404; 0x00010404;
   0x01010404; 0x00010004; 0x01010000; 0x01000404; 0x01000004; 0x00000404; 0x00010404; 0x01010400;
   0x00000404; 0x01000400; 0x01000400; 0x00000000; 0x00010004; 0x00010400; 0x00000000; 0x01010004].

(** des.c:225-243 *)
Definition des_sp2 : list N :=
  [0x80108020; 0x80008000; 0x00008000; 0x00108020; 0x00100000; 0x00000020; 0x80100020; 0x80008020;
   0x80000020; 0x80108020; 0x80108000; 0x80000000; 0x80008000; 0x00100000; 0x00000020; 0x80100020;
   0x00108000; 0x00100020; 0x80008020; 0x00000000; 0x80000000; 0x00008000; 0x00108020; 0x80100000;
   0x00100020; 0x80000020; 0x00000000; 0x00108000; 0x00008020; 0x80108000; 0x80100000; 0x00008020;
   0x00000000; 0x00108020; 0x80100020; 0x00100000; 0x80008020; 0x80100000; 0x80108000; 0x00008000;
   0x80100000; 0x80008000; 0x00000020; 0x80108020; 0x00108020; 0x00000020; 0x00008000; 0x80000000;
   0x00008020; 0x80108000; 0x00100000; 0x80000020; 0x00100020; 0x80008020; 0x80000020; 0x00100020;
   0x00108000; 0x00000000; 0x80008000; 0x00008020; 0x80000000; 0x80100020; 0x80108020; 0x00108000].

(** des.c:245-263 *)
Definition des_sp3 : list N :=
  [0x00000208; 0x08020200; 0x00000000; 0x08020008; 0x08000200; 0x00000000; 0x00020208; 0x08000200;
   0x00020008; 0x08000008; 0x08000008; 0x00020000; 0x08020208; 0x00020008; 0x08020000; 0x00000208;
   0x08000000; 0x00000008; 0x08020200; 0x00000200; 0x00020200; 0x08020000; 0x08020008; 0x00020208;
   0x08000208; 0x00020200; 0x00020000; 0x08000208; 0x00000008; 0x08020208; 0x00000200; 0x08000000;
   0x08020200; 0x08000000; 0x00020008; 0x00000208; 0x00020000; 0x08020200; 0x08000200; 0x00000000;
   0x00000200; 0x00020008; 0x08020208; 0x08000200; 0x08000008; 0x00000200; 0x00000000; 0x08020008;
   0x08000208; 0x00020000; 0x08000000; 0x08020208; 0x00000008; 0x00020208; 0x00020200; 0x08000008;
   0x08020000; 0x08000208; 0x00000208; 0x08020000; 0x00020208; 0x00000008; 0x08020008; 0x00020200].

(** des.c:265-283 *)
Definition des_sp4 : list N :=
  [0x00802001; 0x00002081; 0x00002081; 0x00000080; 0x00802080; 0x00800081; 0x00800001; 0x00002001;
   0x00000000; 0x00802000; 0x00802000; 0x00802081; 0x00000081; 0x00000000; 0x00800080; 0x00800001;
   0x00000001; 0x00002000; 0x00800000; 0x00802001; 0x00000080; 0x00800000; 0x00002001; 0x00002080;
   0x00800081; 0x00000001; 0x00002080; 0x00800080; 0x00002000; 0x00802080; 0x00802081; 0x00000081;
   0x00800080; 0x00800001; 0x00802000; 0x00802081; 0x00000081; 0x00000000; 0x00000000; 0x00802000;
   0x00002080; 0x00800080; 0x00800081; 0x00000001; 0x00802001; 0x00002081; 0x00002081; 0x00000080;
   0x00802081; 0x00000081; 0x00000001; 0x00002000; 0x00800001; 0x00002001; 0x00802080; 0x00800081;
   0x00002001; 0x00002080; 0x00800000; 0x00802001; 0x00000080; 0x00800000; 0x00002000; 0x00802080].

(** des.c:285-303 *)
Definition des_sp5 : list N :=
  [0x00000100; 0x02080100; 0x02080000; 0x42000100; 0x00080000; 0x00000100; 0x40000000; 0x02080000;
   0x40080100; 0x00080000; 0x02000100; 0x40080100; 0x42000100; 0x42080000; 0x00080100; 0x40000000;
   0x02000000; 0x40080000; 0x40080000; 0x00000000; 0x40000100; 0x42080100; 0x42080100; 0x02000100;
   0x42080000; 0x40000100; 0x00000000; 0x42000000; 0x02080100; 0x02000000; 0x42000000; 0x00080100;
   0x00080000; 0x42000100; 0x00000100; 0x02000000; 0x40000000; 0x02080000; 0x42000100; 0x40080100;
   0x02000100; 0x40000000; 0x42080000; 0x02080100; 0x40080100; 0x00000100; 0x02000000; 0x42080000;
   0x42080100; 0x00080100; 0x42000000; 0x42080100; 0x02080000; 0x00000000; 0x40080000; 0x42000000;
   0x00080100; 0x02000100; 0x40000100; 0x00080000; 0x00000000; 0x40080000; 0x02080100; 0x40000100].

(** des.c:305-323 *)
Definition des_sp6 : list N :=
  [0x20000010; 0x20400000; 0x00004000; 0x20404010; 0x20400000; 0x00000010; 0x20404010; 0x00400000;
   0x20004000; 0x00404010; 0x00400000; 0x20000010; 0x00400010; 0x20004000; 0x20000000; 0x00004010;
   0x00000000; 0x00400010; 0x20004010; 0x00004000; 0x00404000; 0x20004010; 0x00000010; 0x20400010;
   0x20400010; 0x00000000; 0x00404010; 0x20404000; 0x00004010; 0x00404000; 0x20404000; 0x20000000;
   0x20004000; 0x00000010; 0x20400010; 0x00404000; 0x20404010; 0x00400000; 0x00004010; 0x20000010;
   0x00400000; 0x20004000; 0x20000000; 0x00004010; 0x20000010; 0x20404010; 0x00404000; 0x20400000;
   0x00404010; 0x20404000; 0x00000000; 0x20400010; 0x00000010; 0x00004000; 0x20400000; 0x00404010;
   0x00004000; 0x00400010; 0x20004010; 0x00000000; 0x20404000; 0x20000000; 0x00400010; 0x20004010].

(** des.c:325-343 *)
Definition des_sp7 : list N :=
  [0x00200000; 0x04200002; 0x04000802; 0x00000000; 0x00000800; 0x04000802; 0x00200802; 0x04200800;
   0x04200802; 0x00200000; 0x00000000; 0x04000002; 0x00000002; 0x04000000; 0x04200002; 0x00000802;
   0x04000800; 0x00200802; 0x00200002; 0x04000800; 0x04000002; 0x04200000; 0x04200800; 0x00200002;
   0x04200000; 0x00000800; 0x00000802; 0x04200802; 0x00200800; 0x00000002; 0x04000000; 0x00200800;
   0x04000000; 0x00200800; 0x00200000; 0x04000802; 0x04000802; 0x04200002; 0x04200002; 0x00000002;
   0x00200002; 0x04000000; 0x04000800; 0x00200000; 0x04200800; 0x00000802; 0x00200802; 0x04200800;
   0x00000802; 0x04000002; 0x04200802; 0x04200000; 0x00200800; 0x00000000; 0x00000002; 0x04200802;
   0x00000000; 0x00200802; 0x04200000; 0x00000800; 0x04000002; 0x04000800; 0x00000800; 0x00200002].

(** des.c:345-363 *)
Definition des_sp8 : list N :=
  [0x10001040; 0x00001000; 0x00040000; 0x10041040; 0x10000000; 0x10001040; 0x00000040; 0x10000000;
   0x00040040; 0x10040000; 0x10041040; 0x00041000; 0x10041000; 0x00041040; 0x00001000; 0x00000040;
   0x10040000; 0x10000040; 0x10001000; 0x00001040; 0x00041000; 0x00040040; 0x10040040; 0x10041000;
   0x00001040; 0x00000000; 0x00000000; 0x10040040; 0x10000040; 0x10001000; 0x00041040; 0x00040000;
   0x00041040; 0x00040000; 0x10041000; 0x00001000; 0x00000040; 0x10040040; 0x00001000; 0x00041040;
   0x10001000; 0x00000040; 0x10000040; 0x10040000; 0x10040040; 0x10000000; 0x00040000; 0x10001040;
   0x00000000; 0x10041040; 0x00040040; 0x10000040; 0x10040000; 0x10001000; 0x10001040; 0x00000000;
   0x10041040; 0x00041000; 0x00041000; 0x00001040; 0x00001040; 0x00040040; 0x10000000; 0x10041000].

(** a table of 64 words read at x & 63 *)
Definition tab6 (t : list N) (x : N) : N := nth (N.to_nat (N.land x 63)) t 0.

(** t = ((a >> n) ^ b) & m; b ^= t; a ^= t << n *)
Definition des_delta (n m : N) (x : N * N) : N * N :=
  let t := N.land (N.lxor (wshr (fst x) n) (snd x)) m in
  (N.lxor (fst x) (wshl 32 t n), N.lxor (snd x) t).
Definition des_sw (x : N * N) : N * N := (snd x, fst x).

(** des.c:375-391, on (l, r) *)
Definition des_ip (x : N * N) : N * N :=
  let x := des_delta 4 0x0F0F0F0F x in
  let x := des_delta 16 0x0000FFFF x in
  let x := des_sw (des_delta 2 0x33333333 (des_sw x)) in
  let x := des_sw (des_delta 8 0x00FF00FF (des_sw x)) in
  let x := (fst x, rol 32 (snd x) 1) in
  let t := N.land (N.lxor (fst x) (snd x)) 0xAAAAAAAA in
  let x := (N.lxor (fst x) t, N.lxor (snd x) t) in
  (rol 32 (fst x) 1, snd x).
(** des.c:418-436, on (l, r); block[0] = r, block[1] = l *)
Definition des_fp (x : N * N) : N * N :=
  let x := (fst x, ror 32 (snd x) 1) in
  let t := N.land (N.lxor (fst x) (snd x)) 0xAAAAAAAA in
  let x := (N.lxor (fst x) t, N.lxor (snd x) t) in
  let x := (ror 32 (fst x) 1, snd x) in
  let x := des_delta 8 0x00FF00FF x in
  let x := des_delta 2 0x33333333 x in
  let x := des_sw (des_delta 16 0x0000FFFF (des_sw x)) in
  let x := des_sw (des_delta 4 0x0F0F0F0F (des_sw x)) in
  des_sw x.

(** des.c:395-404 (and 406-415 with l and r exchanged): the new value of l *)
Definition des_f (l r k0 k1 : N) : N :=
  let t := N.lxor (ror 32 r 4) k0 in
  let l := N.lxor l (N.lor (N.lor (N.lor (tab6 des_sp7 t) (tab6 des_sp5 (wshr t 8))) (tab6 des_sp3 (wshr t 16)))
    (tab6 des_sp1 (wshr t 24))) in
  let t := N.lxor r k1 in
  N.lxor l (N.lor (N.lor (N.lor (tab6 des_sp8 t) (tab6 des_sp6 (wshr t 8))) (tab6 des_sp4 (wshr t 16)))
    (tab6 des_sp2 (wshr t 24))).
Definition des_pair (k0 k1 k2 k3 : N) (x : N * N) : N * N :=
  let l := des_f (fst x) (snd x) k0 k1 in
  let r := des_f (snd x) l k2 k3 in
  (l, r).

(** des.c:365-438 *)
Definition des_crypt (k : list N) (x : N * N) : res (N * N) :=
  let* x := mfor 8 0 (fun i x =>
    let* k0 := get k (4 * i) in
    let* k1 := get k (4 * i + 1) in
    let* k2 := get k (4 * i + 2) in
    let* k3 := get k (4 * i + 3) in
    Ok (des_pair k0 k1 k2 k3 x)) (des_ip x) in
  Ok (des_fp x).

(** des.c:440-462 and 464-486 *)
Fixpoint des_crypts (ks : list (list N)) (x : N * N) : res (N * N) :=
  match ks with [] => Ok x | k :: ks => let* x := des_crypt k x in des_crypts ks x end.
Definition des_encrypt (s : des) (pt : list N) : res (list N) :=
  let* x := des_crypts (des_ek s) (ld2 (k := 4) (ld := load32b) pt) in
  Ok (st2 (st := store32b) x).
Definition des_decrypt (s : des) (ct : list N) : res (list N) :=
  let* x := des_crypts (des_dk s) (ld2 (k := 4) (ld := load32b) ct) in
  Ok (st2 (st := store32b) x).

Definition des_maxkey : nat := 24.
(** des.c:488-506 and 514-527; the number of rounds is ignored *)
Definition des_create (r : N) (key : list N) : res des :=
  assert_ (key_len_ok des_maxkey key) (Ok (des_setup key)).
Definition des_recreate (s : des) (r : N) (key : list N) : res des := des_create r key.
