(** C42 PKCS#7, C43 byte order, C44 rotations, C34/C45 memory helpers. *)
From Coq Require Import NArith Arith List Bool.
From Verif Require Import Lib.Word Lib.Res Lib.Bytes Spec.Modes Spec.Util Model.LoadStore Model.Mem Model.Rotate Model.Util
  Proof.UtilP Proof.LoadStoreP.
Import ListNotations.
Local Open Scope N_scope.

(** C42 *)
Theorem C42_add m buf len pad maxlen n m' : In pad [1; 2; 4; 8; 16; 32; 64; 128] -> len + 128 < 2 ^ 64 ->
  pkcs7_add m buf len pad maxlen = (n, m') ->
  let p := pkcs7_pad len pad in
  (maxlen < len + p -> n = 0 /\ m' = m) /\
  (len + p <= maxlen -> n = len + p /\ n mod pad = 0 /\ 0 < n <= maxlen /\
    rd m' (buf + N.to_nat len) (N.to_nat p) = repeat p (N.to_nat p) /\
    frame m m' (buf + N.to_nat len) (N.to_nat p)).
Proof. exact (pkcs7_add_spec m buf len pad maxlen n m'). Qed.
Print Assumptions C42_add.
Theorem C42_roundtrip m buf len pad maxlen n m' : In pad [1; 2; 4; 8; 16; 32; 64; 128] -> len + 128 < 2 ^ 64 -> 0 < len ->
  pkcs7_add m buf len pad maxlen = (n, m') -> n <> 0 ->
  pkcs7_rem m' buf n = Ok len /\ rd m' buf (N.to_nat len) = rd m buf (N.to_nat len).
Proof. exact (pkcs7_roundtrip m buf len pad maxlen n m'). Qed.
Print Assumptions C42_roundtrip.
Example C42_case : exists m', pkcs7_add (fun _ => 7) 3 5 8 8 = (8, m') /\ rd m' 0 13 = [7;7;7;7;7;7;7;7;3;3;3;7;7].
Proof. eexists. split; vm_compute; reflexivity. Qed.
(** the empty message does not come back: the whole padding is returned as data *)
Theorem C42_empty_refuted m buf pad maxlen : In pad [1; 2; 4; 8; 16; 32; 64; 128] -> pad <= maxlen ->
  exists m', pkcs7_add m buf 0 pad maxlen = (pad, m') /\ pkcs7_rem m' buf pad = Ok pad.
Proof. exact (pkcs7_empty_refuted m buf pad maxlen). Qed.
Print Assumptions C42_empty_refuted.

(** C43: the loads compute the value of the bytes (bytes after the end read as zero in the model) *)
Theorem C43_load16l l o : bytes_ok l -> load16l l o = le_val [b_ l o; b_ l (o + 1)].
Proof. exact (load16l_bytes l o). Qed.
Print Assumptions C43_load16l.
Theorem C43_load32l l o : bytes_ok l -> load32l l o = le_val (map (fun i => b_ l (o + i)) (seq 0 4)).
Proof. exact (load32l_val l o). Qed.
Print Assumptions C43_load32l.
Theorem C43_load64l l o : bytes_ok l -> load64l l o = le_val (map (fun i => b_ l (o + i)) (seq 0 8)).
Proof. exact (load64l_val l o). Qed.
Print Assumptions C43_load64l.
Theorem C43_load16b l o : bytes_ok l -> load16b l o = be_val (map (fun i => b_ l (o + i)) (seq 0 2)).
Proof. exact (load16b_val l o). Qed.
Print Assumptions C43_load16b.
Theorem C43_load32b l o : bytes_ok l -> load32b l o = be_val (map (fun i => b_ l (o + i)) (seq 0 4)).
Proof. exact (load32b_val l o). Qed.
Print Assumptions C43_load32b.
Theorem C43_load64b l o : bytes_ok l -> load64b l o = be_val (map (fun i => b_ l (o + i)) (seq 0 8)).
Proof. exact (load64b_val l o). Qed.
Print Assumptions C43_load64b.
Example C43_order : load32l [1;2;3;4] 0 = 67305985 /\ load32b [1;2;3;4] 0 = 16909060. Proof. split; reflexivity. Qed.
(** the stores write the digits in base 256 *)
Theorem C43_stores x :
  store16l x = le_bytes 2 x /\ store32l x = le_bytes 4 x /\ store64l x = le_bytes 8 x /\
  store16b x = be_bytes 2 x /\ store32b x = be_bytes 4 x /\ store64b x = be_bytes 8 x.
Proof. exact (stores_bytes x). Qed.
Print Assumptions C43_stores.
(** loads and stores are inverse *)
Theorem C43_inverse : codec 16 2 load16l store16l /\ codec 32 4 load32l store32l /\ codec 64 8 load64l store64l /\
  codec 16 2 load16b store16b /\ codec 32 4 load32b store32b /\ codec 64 8 load64b store64b.
Proof. exact codecs. Qed.
Print Assumptions C43_inverse.
(** the array forms are the scalar forms at every word *)
Theorem C43_array_load src n : bytes_ok src ->
  ((length src <= 2 * n)%nat -> load16l_array src (repeat 0 n) (length src) = loads load16l 2 n src /\
                                load16b_array src (repeat 0 n) (length src) = loads load16b 2 n src) /\
  ((length src <= 4 * n)%nat -> load32l_array src (repeat 0 n) (length src) = loads load32l 4 n src /\
                                load32b_array src (repeat 0 n) (length src) = loads load32b 4 n src) /\
  ((length src <= 8 * n)%nat -> load64l_array src (repeat 0 n) (length src) = loads load64l 8 n src /\
                                load64b_array src (repeat 0 n) (length src) = loads load64b 8 n src).
Proof. exact (array_load_all src n). Qed.
Print Assumptions C43_array_load.
Theorem C43_array_store ws o n :
  ((o + n <= 2 * length ws)%nat -> store16l_array ws o n = slice o n (stores store16l ws) /\
                                   store16b_array ws o n = slice o n (stores store16b ws)) /\
  ((o + n <= 4 * length ws)%nat -> store32l_array ws o n = slice o n (stores store32l ws) /\
                                   store32b_array ws o n = slice o n (stores store32b ws)) /\
  ((o + n <= 8 * length ws)%nat -> store64l_array ws o n = slice o n (stores store64l ws) /\
                                   store64b_array ws o n = slice o n (stores store64b ws)).
Proof. exact (array_store_all ws o n). Qed.
Print Assumptions C43_array_store.

(** C44: rotation instructions and functions with a variable count *)
Theorem C44_asm w x r : w <> 0 -> x < 2 ^ w -> rotated_left w x r (rolv w x r) /\ rotated_right w x r (rorv w x r).
Proof. exact (fun Hw Hx => conj (rolv_rotates w x r Hw Hx) (rorv_rotates w x r Hw Hx)). Qed.
Print Assumptions C44_asm.
Theorem C44_portable w x r : In w [8; 16; 32; 64] -> x < 2 ^ w -> r mod w <> 0 ->
  (exists y, ROL w x r = Ok y /\ rotated_left w x r y) /\ (exists y, ROR w x r = Ok y /\ rotated_right w x r y).
Proof. exact (fun Hw Hx Hr => conj (ROL_ok w x r Hw Hx Hr) (ROR_ok w x r Hw Hx Hr)). Qed.
Print Assumptions C44_portable.
Theorem C44_portable_narrow x r :
  (x < 2 ^ 8 -> r mod 8 = 0 -> ROL 8 x r = Ok x /\ ROR 8 x r = Ok x) /\
  (x < 2 ^ 16 -> r mod 16 = 0 -> ROL 16 x r = Ok x).
Proof. exact (narrow_0 x r). Qed.
Print Assumptions C44_portable_narrow.
Theorem C44_inverse w x r y z : w <> 0 -> x < 2 ^ w -> rotated_left w x r y -> rotated_right w y r z -> z = x.
Proof. exact (rotated_inverse w x r y z). Qed.
Print Assumptions C44_inverse.
Theorem C44_unique w x r y z : w <> 0 -> rotated_left w x r y -> rotated_left w x r z -> y = z.
Proof. exact (rotated_left_unique w x r y z). Qed.
Print Assumptions C44_unique.
Example C44_case : rolv 8 129 1 = 3 /\ ROL 8 129 9 = Ok 3 /\ ROR 8 3 1 = Ok 129. Proof. repeat split; vm_compute; reflexivity. Qed.
(** functions with a constant count: there is one for every width and count, and it is right *)
Theorem C44_constants w r c a b x : find_rol w r = Some (c, a, b) -> x < 2 ^ w ->
  rotated_left w x r (rolv w x c) /\ exists y, ROL_const w a b x = Ok y /\ rotated_left w x r y.
Proof. exact (rol_const_ok w r c a b x). Qed.
Print Assumptions C44_constants.
Theorem C44_constants_all w r : In w [8; 16; 32; 64] -> 0 < r < w -> find_rol w r <> None /\ find_ror w r <> None.
Proof. exact (find_all w r). Qed.
Print Assumptions C44_constants_all.
Theorem C44_ror_constants w r c a b x : (w, r) <> (8, 6) -> find_ror w r = Some (c, a, b) -> x < 2 ^ w ->
  rotated_right w x r (rolv w x c) /\ exists y, ROL_const w a b x = Ok y /\ rotated_right w x r y.
Proof. exact (ror_macro_ok w r c a b x). Qed.
Print Assumptions C44_ror_constants.
(** ROR8_6 rotates by the wrong count *)
Theorem C44_ROR8_6_refuted : exists c a b y, find_ror 8 6 = Some (c, a, b) /\ ROL_const 8 a b 1 = Ok y /\ y = rolv 8 1 c /\
  ~ rotated_right 8 1 6 y.
Proof. exact ROR8_6_refuted. Qed.
Print Assumptions C44_ROR8_6_refuted.
(** the portable 32 and 64 bit forms shift by the width when the count is a multiple of it *)
Theorem C44_portable_refuted w x r : w = 32 \/ w = 64 -> r mod w = 0 -> ROL w x r = Err BadShift /\ ROR w x r = Err BadShift.
Proof. exact (fun Hw Hr => conj (ROL_0_refuted w x r Hw Hr) (ROR_0_refuted w x r Hw Hr)). Qed.
Print Assumptions C44_portable_refuted.
Theorem C44_ROR16_refuted x r : 2 ^ 15 <= x -> r mod 16 = 0 -> ROR 16 x r = Err BadShift.
Proof. exact (ROR16_0_refuted x r). Qed.
Print Assumptions C44_ROR16_refuted.

(** C34: comparing *)
Theorem C34_equals m a b len : bytes_ok (rd m a len) -> bytes_ok (rd m b len) ->
  (memory_equals m a b len = 1 <-> rd m a len = rd m b len) /\
  (memory_equals m a b len = 0 <-> rd m a len <> rd m b len).
Proof. exact (equals_spec m a b len). Qed.
Print Assumptions C34_equals.
Example C34_case : memory_equals (fun x => if Nat.eqb x 5 then 1 else 0) 0 4 2 = 0 /\
  memory_equals (fun x => if Nat.eqb x 5 then 1 else 0) 0 6 4 = 1. Proof. split; reflexivity. Qed.
(** C45: wiping *)
Theorem C45_wipe m dst len : rd (memory_wipe m dst len) dst len = repeat 0 len /\ frame m (memory_wipe m dst len) dst len.
Proof. exact (wipe_spec m dst len). Qed.
Print Assumptions C45_wipe.
