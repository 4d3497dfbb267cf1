(** lib/hash/sha2_256.c and lib/hash/sha2_512.c.  The files have the same functions for words of 32 and 64 bits;
    the differences are in [sha2p].  Registers a..h are the list of eight words. *)
From Coq Require Import NArith Arith List Bool.
From Verif Require Import Lib.Word Lib.Res Model.LoadStore Model.HashApi Model.Md.
Import ListNotations.
Local Open Scope N_scope.

(** sha2_256.c:41-75 *)
Definition sha2_256_rc : list N :=
  [0x428A2F98; 0x71374491; 0xB5C0FBCF; 0xE9B5DBA5; 0x3956C25B; 0x59F111F1; 0x923F82A4; 0xAB1C5ED5;
   0xD807AA98; 0x12835B01; 0x243185BE; 0x550C7DC3; 0x72BE5D74; 0x80DEB1FE; 0x9BDC06A7; 0xC19BF174;
   0xE49B69C1; 0xEFBE4786; 0x0FC19DC6; 0x240CA1CC; 0x2DE92C6F; 0x4A7484AA; 0x5CB0A9DC; 0x76F988DA;
   0x983E5152; 0xA831C66D; 0xB00327C8; 0xBF597FC7; 0xC6E00BF3; 0xD5A79147; 0x06CA6351; 0x14292967;
   0x27B70A85; 0x2E1B2138; 0x4D2C6DFC; 0x53380D13; 0x650A7354; 0x766A0ABB; 0x81C2C92E; 0x92722C85;
   0xA2BFE8A1; 0xA81A664B; 0xC24B8B70; 0xC76C51A3; 0xD192E819; 0xD6990624; 0xF40E3585; 0x106AA070;
   0x19A4C116; 0x1E376C08; 0x2748774C; 0x34B0BCB5; 0x391C0CB3; 0x4ED8AA4A; 0x5B9CCA4F; 0x682E6FF3;
   0x748F82EE; 0x78A5636F; 0x84C87814; 0x8CC70208; 0x90BEFFFA; 0xA4506CEB; 0xBEF9A3F7; 0xC67178F2;
   0xCA273ECE; 0xD186B8C7; 0xEADA7DD6; 0xF57D4F7F; 0x06F067AA; 0x0A637DC5; 0x113F9804; 0x1B710B35;
   0x28DB77F5; 0x32CAAB7B; 0x3C9EBE0A; 0x431D67C4; 0x4CC5D4BE; 0x597F299C; 0x5FCB6FAB; 0x6C44198C;
   0x7BA0EA2D; 0x7EABF2D0; 0x8DBE8D03; 0x90BB1721; 0x99A2AD45; 0x9F86E289; 0xA84C4472; 0xB3DF34FC;
   0xB99BB8D7; 0xBC76CBAB; 0xC226A69A; 0xD304F19A; 0xDE1BE20A; 0xE39BB437; 0xEE84927C; 0xF3EDD277;
   0xFBFDFE53; 0x0BEE2C7A; 0x0E90181C; 0x25F57204; 0x2DA45582; 0x3A52C34C; 0x41DC0172; 0x495796FC;
   0x4BD31FC6; 0x533CDE21; 0x5F7ABFE3; 0x66C206B3; 0x6DFCC6BC; 0x7062F20F; 0x778D5127; 0x7EABA3CC;
   0x8363ECCC; 0x85BE1C25; 0x93C04028; 0x9F4A205F; 0xA1953565; 0xA627BB0F; 0xACFA8089; 0xB3C29B23;
   0xB602F6FA; 0xC36CEE0A; 0xC7DC81EE; 0xCE7B8471; 0xD740288C; 0xE21DBA7A; 0xEABBFF66; 0xF56A9E60].
(** sha2_512.c:41-123 *)
Definition sha2_512_rc : list N :=
  [0x428A2F98D728AE22; 0x7137449123EF65CD; 0xB5C0FBCFEC4D3B2F; 0xE9B5DBA58189DBBC;
   0x3956C25BF348B538; 0x59F111F1B605D019; 0x923F82A4AF194F9B; 0xAB1C5ED5DA6D8118;
   0xD807AA98A3030242; 0x12835B0145706FBE; 0x243185BE4EE4B28C; 0x550C7DC3D5FFB4E2;
   0x72BE5D74F27B896F; 0x80DEB1FE3B1696B1; 0x9BDC06A725C71235; 0xC19BF174CF692694;
   0xE49B69C19EF14AD2; 0xEFBE4786384F25E3; 0x0FC19DC68B8CD5B5; 0x240CA1CC77AC9C65;
   0x2DE92C6F592B0275; 0x4A7484AA6EA6E483; 0x5CB0A9DCBD41FBD4; 0x76F988DA831153B5;
   0x983E5152EE66DFAB; 0xA831C66D2DB43210; 0xB00327C898FB213F; 0xBF597FC7BEEF0EE4;
   0xC6E00BF33DA88FC2; 0xD5A79147930AA725; 0x06CA6351E003826F; 0x142929670A0E6E70;
   0x27B70A8546D22FFC; 0x2E1B21385C26C926; 0x4D2C6DFC5AC42AED; 0x53380D139D95B3DF;
   0x650A73548BAF63DE; 0x766A0ABB3C77B2A8; 0x81C2C92E47EDAEE6; 0x92722C851482353B;
   0xA2BFE8A14CF10364; 0xA81A664BBC423001; 0xC24B8B70D0F89791; 0xC76C51A30654BE30;
   0xD192E819D6EF5218; 0xD69906245565A910; 0xF40E35855771202A; 0x106AA07032BBD1B8;
   0x19A4C116B8D2D0C8; 0x1E376C085141AB53; 0x2748774CDF8EEB99; 0x34B0BCB5E19B48A8;
   0x391C0CB3C5C95A63; 0x4ED8AA4AE3418ACB; 0x5B9CCA4F7763E373; 0x682E6FF3D6B2B8A3;
   0x748F82EE5DEFB2FC; 0x78A5636F43172F60; 0x84C87814A1F0AB72; 0x8CC702081A6439EC;
   0x90BEFFFA23631E28; 0xA4506CEBDE82BDE9; 0xBEF9A3F7B2C67915; 0xC67178F2E372532B;
   0xCA273ECEEA26619C; 0xD186B8C721C0C207; 0xEADA7DD6CDE0EB1E; 0xF57D4F7FEE6ED178;
   0x06F067AA72176FBA; 0x0A637DC5A2C898A6; 0x113F9804BEF90DAE; 0x1B710B35131C471B;
   0x28DB77F523047D84; 0x32CAAB7B40C72493; 0x3C9EBE0A15C9BEBC; 0x431D67C49C100D4C;
   0x4CC5D4BECB3E42B6; 0x597F299CFC657E2A; 0x5FCB6FAB3AD6FAEC; 0x6C44198C4A475817;
   0x7BA0EA2D98160007; 0x7EABF2D0C21F964A; 0x8DBE8D038B409545; 0x90BB1721582E8285;
   0x99A2AD45936D4E61; 0x9F86E289FE03E739; 0xA84C4472FAA9A82F; 0xB3DF34FCE89E0532;
   0xB99BB8D7B173534F; 0xBC76CBAB1AEA1F9C; 0xC226A69A780F3CC3; 0xD304F19AA233957D;
   0xDE1BE20A212129DD; 0xE39BB43755141950; 0xEE84927CEA48DDD2; 0xF3EDD2773C523B67;
   0xFBFDFE53A8D32F2A; 0x0BEE2C7AB77E9E25; 0x0E90181CF1B09E56; 0x25F57204C725BED8;
   0x2DA45582CD598B32; 0x3A52C34C203BFCF3; 0x41DC0172CD1991C1; 0x495796FCB33CC1C0;
   0x4BD31FC693F9F16E; 0x533CDE2115F5A9A0; 0x5F7ABFE36E99C1D3; 0x66C206B310A57E6F;
   0x6DFCC6BC39603F61; 0x7062F20F86FD1052; 0x778D51277ADEC865; 0x7EABA3CC25DA7048;
   0x8363ECCC37A5BE05; 0x85BE1C253BEBA54E; 0x93C04028F348BBC5; 0x9F4A205FD05B2148;
   0xA19535651CA6D2DE; 0xA627BB0FBF027BC7; 0xACFA80891DA2F06B; 0xB3C29B23031A7F9D;
   0xB602F6FAC7D3D74D; 0xC36CEE0A10C7BA49; 0xC7DC81EEA9EBAD4F; 0xCE7B8471B0F809DF;
   0xD740288C84DF269C; 0xE21DBA7AC2290607; 0xEABBFF66BE175964; 0xF56A9E60F62CEA92;
   0xFDE41D729D126EAB; 0x0434D0970E42E781; 0x0A7CB752A3F1CD86; 0x0EA7D22D6BCD7382;
   0x16F2987F9495A5EE; 0x1D20CDCD45B8DE1E; 0x213AF85A39B0C320; 0x2964505C52A2F35B;
   0x2D738E114181E082; 0x3B8CEA0E71C58AAF; 0x4584E6AE9F54016E; 0x515F4356903DCCC2;
   0x5356112DDFD5A8E9; 0x5D1BC3EDBE2C897A; 0x5F0DA9F8ED53548B; 0x62EF0BE4D5492E78;
   0x64DE896EACE0BE7F; 0x6E801BA3078AE05F; 0x7BDB3595CDADF50A; 0x7FA5377856834C98;
   0x818916BAD3D008A8; 0x854E959F834021A7; 0x926A82C27137E2C6; 0x9622C7BA7D179197;
   0x97FDD5929D59CE21; 0x9BB1CB7470162D7E; 0xAE0B55609FFEA9D5; 0xB1AE88AB4ECA7239;
   0xB8ECC9F6468460A1; 0xC1EB8968A81A3124; 0xC911DD821BB6B418; 0xCCA11FE32D0C58D0].

Record sha2p := {
  s2_w : N;                                   (* word size *)
  s2_rc : list N;
  s2_S0 : N -> N; s2_S1 : N -> N; s2_E0 : N -> N; s2_E1 : N -> N;
  s2_load : list N -> nat -> N }.
(** sha2_256.c:124-128, load 156-171 *)
Definition sha2_256p : sha2p := {|
  s2_w := 32; s2_rc := sha2_256_rc;
  s2_S0 x := N.lxor (N.lxor (ror 32 x 7) (ror 32 x 18)) (wshr x 3);
  s2_S1 x := N.lxor (N.lxor (ror 32 x 17) (ror 32 x 19)) (wshr x 10);
  s2_E0 x := N.lxor (N.lxor (ror 32 x 2) (ror 32 x 13)) (ror 32 x 22);
  s2_E1 x := N.lxor (N.lxor (ror 32 x 6) (ror 32 x 11)) (ror 32 x 25);
  s2_load := load32b |}.
(** sha2_512.c:172-176, load 204-219 *)
Definition sha2_512p : sha2p := {|
  s2_w := 64; s2_rc := sha2_512_rc;
  s2_S0 x := N.lxor (N.lxor (ror 64 x 1) (ror 64 x 8)) (wshr x 7);
  s2_S1 x := N.lxor (N.lxor (ror 64 x 19) (ror 64 x 61)) (wshr x 6);
  s2_E0 x := N.lxor (N.lxor (ror 64 x 28) (ror 64 x 34)) (ror 64 x 39);
  s2_E1 x := N.lxor (N.lxor (ror 64 x 14) (ror 64 x 18)) (ror 64 x 41);
  s2_load := load64b |}.

Section Sha2.
  Variable p : sha2p.
  Notation "x +w y" := (wadd (s2_w p) x y) (at level 50, left associativity).
  (** sha2_256.c:121-122, sha2_512.c:169-170: CH, MAJ *)
  Definition s2_ch (x0 x1 x2 : N) : N := N.lxor x2 (N.land x0 (N.lxor x1 x2)).
  Definition s2_maj (x0 x1 x2 : N) : N := N.lor (N.land x0 x1) (N.land x2 (N.lor x0 x1)).
  (** sha2_256.c:130-135, sha2_512.c:178-183: ROUND with register [j] in the place of A, the others following
      cyclically, as in the eight calls ROUND(a, b, ..., h), ROUND(h, a, ..., g), ... *)
  Definition s2_round (j : nat) (rc rk : N) (x : list N) : list N :=
    let at_ k := nth ((j + k) mod 8)%nat x 0 in
    let h := at_ 7%nat +w (s2_E1 p (at_ 4%nat) +w s2_ch (at_ 4%nat) (at_ 5%nat) (at_ 6%nat) +w rc +w rk) in
    let d := at_ 3%nat +w h in
    let h := h +w (s2_E0 p (at_ 0%nat) +w s2_maj (at_ 0%nat) (at_ 1%nat) (at_ 2%nat)) in
    upd (upd x ((j + 3) mod 8) d) ((j + 7) mod 8) h.
  (** the register in the place of A in call [t] of a group: a, h, g, f, e, d, c, b *)
  Definition s2_first (t : nat) : nat := ((8 - t mod 8) mod 8)%nat.
  (** sha2_256.c:137-142, sha2_512.c:185-190: KI *)
  Definition s2_ki (k : list N) (i : nat) : list N * N :=
    let at_ j := nth ((i + j) mod 16)%nat k 0 in
    let v := at_ 0%nat +w (s2_S0 p (at_ 1%nat) +w at_ 9%nat +w s2_S1 p (at_ 14%nat)) in
    (upd k (i mod 16) v, v).
  (** sha2_256.c:144-213, sha2_512.c:192-261.  The loop over i makes eight rounds at a time. *)
  Definition s2_rounds (r : N) (h data : list N) : res (list N) :=
    let k := map (fun i => s2_load p data (N.to_nat (s2_w p / 8) * i)%nat) (seq 0 16) in
    let* x := mfor 16 0 (fun i x => let* rc := get (s2_rc p) i in
                                    Ok (s2_round (s2_first i) rc (nth i k 0) x)) h in
    let groups := N.to_nat ((r - 16 + 7) / 8) in
    let* y := mfor (8 * groups) 16 (fun i y =>
                let* rc := get (s2_rc p) i in
                let '(k, v) := s2_ki (fst y) i in
                Ok (k, s2_round (s2_first i) rc v (snd y))) (k, x) in
    Ok (map (fun q => fst q +w snd q) (combine h (snd y))).
End Sha2.

(** sha2_256.c:92-103 (256), 104-116 (224) *)
Definition sha2_256_iv (n : nat) : list N :=
  if (28 <? n)%nat then
    [0x6A09E667; 0xBB67AE85; 0x3C6EF372; 0xA54FF53A; 0x510E527F; 0x9B05688C; 0x1F83D9AB; 0x5BE0CD19]
  else
    [0xC1059ED8; 0x367CD507; 0x3070DD17; 0xF70E5939; 0xFFC00B31; 0x68581511; 0x64F98FA7; 0xBEFA4FA4].
(** sha2_512.c:140-151 (512), 152-164 (384) *)
Definition sha2_512_iv (n : nat) : list N :=
  if (48 <? n)%nat then
    [0x6A09E667F3BCC908; 0xBB67AE8584CAA73B; 0x3C6EF372FE94F82B; 0xA54FF53A5F1D36F1;
     0x510E527FADE682D1; 0x9B05688C2B3E6C1F; 0x1F83D9ABFB41BD6B; 0x5BE0CD19137E2179]
  else
    [0xCBBB9D5DC1059ED8; 0x629A292A367CD507; 0x9159015A3070DD17; 0x152FECD8F70E5939;
     0x67332667FFC00B31; 0x8EB44A8768581511; 0xDB0C2E0D64F98FA7; 0x47B5481DBEFA4FA4].

(** sha2_256.c: process 144-213, input 215-235, finish 237-259, output 261-268 *)
Definition sha2_256_md (r : N) : mdp := {|
  mp_bs := 64; mp_lenat := 56; mp_pad := 0x80; mp_len l := flat_map store64b (rev l);
  mp_process := s2_rounds sha2_256p r; mp_out h i n := store32b_array h i n; mp_maxout := 32 |}.
(** sha2_512.c: process 192-261, input 263-287, finish 289-316, output 318-325 *)
Definition sha2_512_md (r : N) : mdp := {|
  mp_bs := 128; mp_lenat := 112; mp_pad := 0x80; mp_len l := flat_map store64b (rev l);
  mp_process := s2_rounds sha2_512p r; mp_out h i n := store64b_array h i n; mp_maxout := 64 |}.

(** sha2_256.c:77-119; buf is not touched *)
Definition sha2_256_start (r : N) (n : nat) (buf : list N) : res rmd :=
  Ok (if r =? 0 then 64 else r, md_start 1 (sha2_256_iv n) buf).
(** sha2_512.c:125-167 *)
Definition sha2_512_start (r : N) (n : nat) (buf : list N) : res rmd :=
  Ok (if r =? 0 then 80 else r, md_start 2 (sha2_512_iv n) buf).
(** sha2_256.c:270-328 *)
Definition hash_sha2_256 : hash := md_hash sha2_256_md sha2_256_start 32 64.
(** sha2_512.c:327-385 *)
Definition hash_sha2_512 : hash := md_hash sha2_512_md sha2_512_start 64 128.
