(** Destroying objects: what is wiped and what is in each piece of memory when it is given to free.  The contents of an object are bytes;
    its pointers to other objects are kept beside them.  sizeof of a structure is a variable [st]. *)
From Coq Require Import NArith Arith List Bool.
From Verif Require Import Lib.Word Lib.Res Model.BlockApi Model.Xtea Model.Rc5 Model.Rc6 Model.Speck Model.Simon Model.Lea Model.Sparx Model.Rectangle Model.Gost Model.Idea Model.Rijndael
  Model.Seed Model.Sm4 Model.Blowfish Model.Twofish Model.Serpent Model.Shacal2 Model.Safer Model.Saferpp Model.Khazad Model.Anubis Model.Aria.
Import ListNotations.

(** ** Sizes.  For each block cipher with a key schedule behind the structure: the bytes asked of malloc by create and those wiped by destroy,
    both beyond sizeof(kripto_block).  unsigned int is 32 bits, the sum with sizeof is in size_t.  All other block ciphers ask for and wipe
    sizeof(kripto_block): 3way.c:210, 220; camellia.c:663, 675; cast5.c:801, 811; crax_s.c:145, 158; des.c:496, 510; noekeon.c:186, 213;
    rc2.c:198, 208; skipjack.c:225, 235; tea.c:95, 105; threefish256.c:200, 210; threefish512.c:269, 279; threefish1024.c:408, 418. *)
Section Sizes.
Local Open Scope N_scope.
Definition fixed_alloc (r : N) (key : list N) : N := 0.
Definition fixed_wiped {S} (s : S) : N := 0.
(** xtea.c:115, 129 *)
Definition xtea_alloc (r : N) (key : list N) : N := wshl 32 (xtea_r r) 2.
Definition xtea_wiped (s : xtea) : N := wshl 32 (xtea_rounds s) 2.
(** rc5.c:129, 143 *)
Definition rc5_alloc (r : N) (key : list N) : N := wshl 32 (wadd 32 (rc5_rounds r) 1) 3.
Definition rc5_wiped (s : rc5) : N := wshl 32 (wadd 32 (rc5_r s) 1) 3.
(** rc6.c:36, 170, 184 *)
Definition rc6_alloc (r : N) (key : list N) : N := wshl 32 (wshl 32 (wadd 32 (rc6_r r) 2) 1) 2.
Definition rc6_wiped (s : rc6) : N := wshl 32 (wshl 32 (wadd 32 (rc6_rounds s) 2) 1) 2.
(** speck32.c:117, 131 (1), speck64.c:117, 131 (2), speck128.c:117, 131 (3) *)
Definition speck_alloc (p : speck_par) (sh : N) (r : N) (key : list N) : N := wshl 32 (speck_r p r key) sh.
Definition speck_wiped (sh : N) (s : speck) : N := wshl 32 (speck_rounds s) sh.
(** simon32.c:127, 141 (1), simon64.c:138, 152 (2), simon128.c:147, 161 (3) *)
Definition simon_alloc (p : simon_par) (sh : N) (r : N) (key : list N) : N := wshl 32 (simon_r p r key) sh.
Definition simon_wiped (sh : N) (s : simon) : N := wshl 32 (simon_rounds s) sh.
(** lea.c:218, 231 *)
Definition lea_alloc (r : N) (key : list N) : N := mask 32 (lea_rounds r key * 24).
Definition lea_wiped (s : lea) : N := mask 32 (lea_r s * 24).
(** trax_m.c:192, 206 (4), trax_l.c:260, 274 (5) *)
Definition trax_alloc (p : trax_par) (sh : N) (r : N) (key : list N) : N := wshl 32 (wadd 32 (trax_r p r) 1) sh.
Definition trax_wiped (sh : N) (s : trax) : N := wshl 32 (wadd 32 (trax_steps s) 1) sh.
(** rectangle.c:257, 271 *)
Definition rect_alloc (r : N) (key : list N) : N := wshl 32 (wadd 32 (rect_r r) 1) 3.
Definition rect_wiped (s : rectangle) : N := wshl 32 (wadd 32 (rect_rounds s) 1) 3.
(** gost.c:153, 177 *)
Definition gost_alloc (r : N) (key : list N) : N := wshl 32 (gost_rounds r) 2.
Definition gost_wiped (s : gost) : N := wshl 32 (gost_r s) 2.
(** idea.c:184, 199 *)
Definition idea_alloc (r : N) (key : list N) : N := mask 32 (idea_rounds r * 24) + 16.
Definition idea_wiped (s : idea) : N := mask 32 (idea_r s * 24) + 16.
(** rijndael.c:902, 917 (10 rounds at least, 5) and 1135, 1150 (14, 6) *)
Definition rj_alloc (min sh : N) (r : N) (key : list N) : N := wshl 32 (wadd 32 (rj_rounds min r key) 1) sh.
Definition rj_wiped (sh : N) (s : rijndael) : N := wshl 32 (wadd 32 (rj_r s) 1) sh.
(** seed.c:430, 444 *)
Definition seed_alloc (r : N) (key : list N) : N := wshl 32 (seed_rounds r) 3.
Definition seed_wiped (s : seed) : N := wshl 32 (seed_r s) 3.
(** sm4.c:196, 209 *)
Definition sm4_alloc (r : N) (key : list N) : N := wshl 32 (sm4_rounds r) 2.
Definition sm4_wiped (s : sm4) : N := wshl 32 (sm4_r s) 2.
(** blowfish.c:492, 506 *)
Definition blowfish_alloc (r : N) (key : list N) : N := wshl 32 (wadd 32 (blowfish_rounds r) 2) 2.
Definition blowfish_wiped (s : blowfish) : N := wshl 32 (wadd 32 (bf_r s) 2) 2.
(** twofish.c:41, 1197, 1211 *)
Definition twofish_alloc (r : N) (key : list N) : N := wshl 32 (wadd 32 (wshl 32 (twofish_rounds r) 1) 8) 2.
Definition twofish_wiped (s : twofish) : N := wshl 32 (wadd 32 (wshl 32 (twf_r s) 1) 8) 2.
(** serpent.c:680, 694 *)
Definition serpent_alloc (r : N) (key : list N) : N := wshl 32 (wadd 32 (serpent_rounds r) 1) 4.
Definition serpent_wiped (s : serpent) : N := wshl 32 (wadd 32 (serp_r s) 1) 4.
(** shacal2.c:206, 219 *)
Definition shacal2_alloc (r : N) (key : list N) : N := wshl 32 (shacal2_rounds r) 2.
Definition shacal2_wiped (s : shacal2) : N := wshl 32 (shac_r s) 2.
(** safer.c:324 and 377, 304 *)
Definition safer_alloc (r : N) (key : list N) : N := wshl 32 (safer_rounds r key) 4 + 8.
Definition safer_wiped (s : safer) : N := wshl 32 (safer_r s) 4 + 8.
(** saferpp.c:385, 365 *)
Definition saferpp_alloc (r : N) (key : list N) : N := wshl 32 (saferpp_rounds r key) 5 + 16.
Definition saferpp_wiped (s : saferpp) : N := wshl 32 (spp_r s) 5 + 16.
(** khazad.c:719, 734 *)
Definition khazad_alloc (r : N) (key : list N) : N := wshl 32 (wadd 32 (khazad_rounds r) 1) 4.
Definition khazad_wiped (s : khazad) : N := wshl 32 (wadd 32 (khz_r s) 1) 4.
(** anubis.c:738, 753 *)
Definition anubis_alloc (r : N) (key : list N) : N := wshl 32 (wadd 32 (anubis_rounds r key) 1) 5.
Definition anubis_wiped (s : anubis) : N := wshl 32 (wadd 32 (anu_r s) 1) 5.
(** aria.c:672, 687 *)
Definition aria_alloc (r : N) (key : list N) : N := wshl 32 (wadd 32 (aria_rounds r key) 1) 5.
Definition aria_wiped (s : aria) : N := wshl 32 (wadd 32 (aria_r s) 1) 5.
(** stream/cbc.c:118, 96 and ctr.c:115, 93: two blocks; the members blocksize are desc->maxiv, the block size *)
Definition two_blocks (bs : N) : N := wshl 32 bs 1.
(** mac/omac.c:447, 426 and xcbc.c:144, 123: four and three blocks; the member len is desc->maxtag, the block size *)
Definition four_blocks (bs : N) : N := mask 32 (bs * 4).
Definition three_blocks (bs : N) : N := mask 32 (bs * 3).
End Sizes.

(** ** Memory.  [c_open] is the number of bytes at the start of the object in which no key dependent data is ever stored: the structure itself
    when it has pointers, lengths and numbers only. *)
Record cell := { c_ptrs : list nat; c_bytes : list N; c_open : nat }.
(** live objects, and what was in each freed one when it was freed; NULL is 0 *)
Record dheap := { dh_cell : nat -> option cell; dh_freed : list cell }.
Definition dprog : Type := dheap -> res dheap.
Definition dseq (p q : dprog) : dprog := fun h => match p h with Ok h' => q h' | Err e => Err e end.
Notation "p ;;; q" := (dseq p q) (at level 61, right associativity).
Definition dset (h : dheap) (a : nat) (v : option cell) : nat -> option cell := fun x => if x =? a then v else dh_cell h x.
(** kripto_memory_wipe(a + off, n) *)
Definition dwipe (a off n : nat) : dprog := fun h =>
  match dh_cell h a with
  | None => Err UseAfterFree
  | Some c => if off + n <=? length (c_bytes c)
    then Ok {| dh_cell := dset h a (Some {| c_ptrs := c_ptrs c; c_bytes := firstn off (c_bytes c) ++ repeat 0%N n ++ skipn (off + n) (c_bytes c); c_open := c_open c |});
               dh_freed := dh_freed h |}
    else Err OobWrite
  end.
Definition dfree (a : nat) : dprog := fun h =>
  if a =? 0 then Ok h else
  match dh_cell h a with
  | None => Err UseAfterFree
  | Some c => Ok {| dh_cell := dset h a None; dh_freed := c :: dh_freed h |}
  end.
(** d(s->p) for the pointer number [i] *)
Definition don (a i : nat) (d : nat -> dprog) : dprog := fun h =>
  match dh_cell h a with
  | None => Err UseAfterFree
  | Some c => match nth_error (c_ptrs c) i with Some p => d p h | None => Err OobRead end
  end.

Section Destroy.
  Variable st : nat.
  (** block ciphers, hashes (hash/sha1.c:240-244 and the like), stream/chacha.c:272-276, rc4.c:154-158, salsa20.c:274-278: [n] bytes behind the structure *)
  Definition plain_destroy (n : N) (a : nat) : dprog := dwipe a 0 (st + N.to_nat n) ;;; dfree a.
  (** an object with one other: stream/ecb.c:63-69 (0), cbc.c:93-98 and ctr.c:90-95 (two blocks), cfb.c:104-109 and ofb.c:81-86 (one block),
      mac/omac.c:422-428, xcbc.c:119-125, hmac.c:101-107 (the block size of the hash), and the three Skeins: hash/skein256.c:218-223,
      mac/skein256.c:216-221, stream/skein256.c:264-269 (0) *)
  Definition one_destroy (d : nat -> dprog) (n : N) (a : nat) : dprog := don a 0 d ;;; dwipe a 0 (st + N.to_nat n) ;;; dfree a.
  (** mac/keccak.c:120-124, stream/keccak.c:91-95: the structure is not wiped *)
  Definition keccak_destroy (d : nat -> dprog) (a : nat) : dprog := don a 0 d ;;; dfree a.
  (** ae/eax.c:97-110: only iv is wiped, [len] bytes behind the structure; the two descriptors are freed *)
  Definition eax_destroy (ds dm : nat -> dprog) (len : nat) (a : nat) : dprog :=
    don a 0 ds ;;; don a 1 dm ;;; don a 2 dm ;;; dwipe a st len ;;; don a 3 dfree ;;; don a 4 dfree ;;; dfree a.
  (** ae/eax2.c:92-101 *)
  Definition eax2_destroy (ds dm : nat -> dprog) (len : nat) (a : nat) : dprog :=
    don a 0 ds ;;; don a 1 dm ;;; don a 2 dm ;;; dwipe a st len ;;; dfree a.
  (** random.c:322-329; the descriptor of HMAC is freed *)
  Definition random_destroy (ds : nat -> dprog) (a : nat) : dprog :=
    don a 0 ds ;;; don a 1 dfree ;;; dwipe a 0 st ;;; dfree a.
End Destroy.
