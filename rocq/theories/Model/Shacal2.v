(** lib/block/shacal2.c *)
From Coq Require Import NArith Arith List Bool.
From Verif Require Import Lib.Word Lib.Res Model.LoadStore Model.BlockApi Model.Table Lib.Bytes Lib.Bij.
Import ListNotations.
Local Open Scope N_scope.

(** shacal2.c:31-36 *)
Record shacal2 := { shac_r : N; shac_k : list N }.

(** shacal2.c:38-72 *)
Definition shac_rc : list N :=
  [0x428A2F98; 0x71374491; 0xB5C0FBCF; 0xE9B5DBA5; 0x3956C25B; 0x59F111F1; 0x923F82A4; 0xAB1C5ED5;
   0xD807AA98; 0x12835B01; 0x243185BE; 0x550C7DC3; 0x72BE5D74; 0x80DEB1FE; 0x9BDC06A7; 0xC19BF174;
   0xE49B69C1; 0xEFBE4786; 0x0FC19DC6; 0x240CA1CC; 0x2DE92C6F; 0x4A7484AA; 0x5CB0A9DC; 0x76F988DA;
   0x983E5152; 0xA831C66D; 0xB00327C8; 0xBF597FC7; 0xC6E00BF3; 0xD5A79147; 0x06CA6351; 0x14292967;
   0x27B70A85; 0x2E1B2138; 0x4D2C6DFC; 0x53380D13; 0x650A7354; 0x766A0ABB; 0x81C2C92E; 0x92722C85;
   0xA2BFE8A1; 0xA81A664B; 0xC24B8B70; 0xC76C51A3; 0xD192E819; 0xD6990624; 0xF40E3585; 0x106AA070;
   0x19A4C116; 0x1E376C08; 0x2748774C; 0x34B0BCB5; 0x391C0CB3; 0x4ED8AA4A; 0x5B9CCA4F; 0x682E6FF3;
   0x748F82EE; 0x78A5636F; 0x84C87814; 0x8CC70208; 0x90BEFFFA; 0xA4506CEB; 0xBEF9A3F7; 0xC67178F2;
   0xCA273ECE; 0xD186B8C7; 0xEADA7DD6; 0xF57D4F7F; 0x06F067AA; 0x0A637DC5; 0x113F9804; 0x1B710B35;
   0x28DB77F5; 0x32CAAB7B; 0x3C9EBE0A; 0x431D67C4; 0x4CC5D4BE; 0x597F299C; 0x5FCB6FAB; 0x6C44198C;
   0x7BA0EA2D; 0x7EABF2D0; 0x8DBE8D03; 0x90BB1721; 0x99A2AD45; 0x9F86E289; 0xA84C4472; 0xB3DF34FC;
   0xB99BB8D7; 0xBC76CBAB; 0xC226A69A; 0xD304F19A; 0xDE1BE20A; 0xE39BB437; 0xEE84927C; 0xF3EDD277;
   0xFBFDFE53; 0x0BEE2C7A; 0x0E90181C; 0x25F57204; 0x2DA45582; 0x3A52C34C; 0x41DC0172; 0x495796FC;
   0x4BD31FC6; 0x533CDE21; 0x5F7ABFE3; 0x66C206B3; 0x6DFCC6BC; 0x7062F20F; 0x778D5127; 0x7EABA3CC;
   0x8363ECCC; 0x85BE1C25; 0x93C04028; 0x9F4A205F; 0xA1953565; 0xA627BB0F; 0xACFA8089; 0xB3C29B23;
   0xB602F6FA; 0xC36CEE0A; 0xC7DC81EE; 0xCE7B8471; 0xD740288C; 0xE21DBA7A; 0xEABBFF66; 0xF56A9E60].

(** shacal2.c:74-75 *)
Definition shac_ch (x0 x1 x2 : N) : N := N.lxor x2 (N.land x0 (N.lxor x1 x2)).
Definition shac_maj (x0 x1 x2 : N) : N := N.lor (N.land x0 x1) (N.land x2 (N.lor x0 x1)).
(** shacal2.c:77-81 *)
Definition shac_s0 (x : N) : N := N.lxor (N.lxor (ror 32 x 7) (ror 32 x 18)) (wshr x 3).
Definition shac_s1 (x : N) : N := N.lxor (N.lxor (ror 32 x 17) (ror 32 x 19)) (wshr x 10).
Definition shac_e0 (x : N) : N := N.lxor (N.lxor (ror 32 x 2) (ror 32 x 13)) (ror 32 x 22).
Definition shac_e1 (x : N) : N := N.lxor (N.lxor (ror 32 x 6) (ror 32 x 11)) (ror 32 x 25).

(** shacal2.c:83-88 on the registers a..h; in the calls (115-122) argument number [j]
    of call number [t] is register [(j + 8 - t) mod 8] *)
Definition shac_reg (t j : nat) : nat := ((j + 8 - t) mod 8)%nat.
Definition shac_t1 (t : nat) (rk : N) (x : list N) : N :=
  let g j := nth (shac_reg t j) x 0 in
  wadd 32 (wadd 32 (shac_e1 (g 4%nat)) (shac_ch (g 4%nat) (g 5%nat) (g 6%nat))) rk.
Definition shac_t2 (t : nat) (x : list N) : N :=
  let g j := nth (shac_reg t j) x 0 in
  wadd 32 (shac_e0 (g 0%nat)) (shac_maj (g 0%nat) (g 1%nat) (g 2%nat)).
Definition shac_round (t : nat) (rk : N) (x : list N) : list N :=
  let h := shac_reg t 7 in
  let d := shac_reg t 3 in
  let x := upd x h (wadd 32 (nth h x 0) (shac_t1 t rk x)) in
  let x := upd x d (wadd 32 (nth d x 0) (nth h x 0)) in
  upd x h (wadd 32 (nth h x 0) (shac_t2 t x)).
(** shacal2.c:90-95 *)
Definition shac_iround (t : nat) (rk : N) (x : list N) : list N :=
  let h := shac_reg t 7 in
  let d := shac_reg t 3 in
  let x := upd x h (wsub 32 (nth h x 0) (shac_t2 t x)) in
  let x := upd x d (wsub 32 (nth d x 0) (nth h x 0)) in
  upd x h (wsub 32 (nth h x 0) (shac_t1 t rk x)).

(** shacal2.c:113-123: passes of eight rounds while i < r *)
Definition shac_passes (r : N) : nat := N.to_nat ((r + 7) / 8).
Definition shac_enc_words (s : shacal2) (x : list N) : res (list N) :=
  mfor (shac_passes (shac_r s)) 0 (fun i x =>
    mfor 8 0 (fun t x => let* k := get (shac_k s) (8 * i + t) in Ok (shac_round t k x)) x) x.
(** shacal2.c:97-133 *)
Definition shacal2_encrypt (s : shacal2) (pt : list N) : res (list N) :=
  let* y := shac_enc_words s (loads load32b 4 8 pt) in Ok (stores store32b y).
(** shacal2.c:151-161: the calls with s->k[i - 1] .. s->k[i - 8]; when the number of
    rounds is not a multiple of eight the last pass would read in front of the array *)
Definition shac_dec_words (s : shacal2) (x : list N) : res (list N) :=
  if shac_r s mod 8 =? 0 then
    mford (shac_passes (shac_r s)) (fun i x =>
      mford 8 (fun t x => let* k := get (shac_k s) (8 * i + t) in Ok (shac_iround t k x)) x) x
  else Err OobRead.
(** shacal2.c:135-171 *)
Definition shacal2_decrypt (s : shacal2) (ct : list N) : res (list N) :=
  let* y := shac_dec_words s (loads load32b 4 8 ct) in Ok (stores store32b y).

(** shacal2.c:183-186: [n] further words from the sixteen before *)
Fixpoint shac_words (n : nat) (w : list N) : list N :=
  match n with
  | O => []
  | S n' =>
    let g j := nth j w 0 in
    let v := wadd 32 (wadd 32 (wadd 32 (g 0%nat) (shac_s0 (g 1%nat))) (g 9%nat)) (shac_s1 (g 14%nat)) in
    v :: shac_words n' (tl w ++ [v])
  end.
(** shacal2.c:173-192; [r] is below 128, the length of RC, by the assert of create *)
Definition shac_setup (r : N) (key : list N) : shacal2 :=
  let n := N.to_nat r in
  let w := key32b key 16 in
  let ks := w ++ shac_words (n - 16) w in
  {| shac_r := r; shac_k := map (fun i => wadd 32 (nth i ks 0) (nth i shac_rc 0)) (seq 0 n) |}.

(** shacal2.c:248-259 *)
Definition shacal2_maxkey : nat := 64.
(** shacal2.c:204 and 233 *)
Definition shacal2_rounds (r : N) : N := if r =? 0 then 64 else r.
(** shacal2.c:194-215; sixteen words are cleared (180) in an array of r words *)
Definition shacal2_create (r : N) (key : list N) : res shacal2 :=
  assert_ (key_len_ok shacal2_maxkey key)
    (assert_ (r <? 128)
      (let r := shacal2_rounds r in fits (N.max 16 r) (wshl 32 r 2 / 4) (Ok (shac_setup r key)))).
(** shacal2.c:223-246 *)
Definition shacal2_recreate (s : shacal2) (r : N) (key : list N) : res shacal2 :=
  assert_ (key_len_ok shacal2_maxkey key)
    (assert_ (r <? 128)
      (let r := shacal2_rounds r in if r =? shac_r s then Ok (shac_setup r key) else Err UseAfterFree)).
