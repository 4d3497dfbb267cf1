(** lib/mac/hmac.c and lib/mac/keccak.c: MACs from a hash.  The allocation of the object is not modelled. *)
From Coq Require Import NArith Arith List Bool.
From Verif Require Import Lib.Res Model.HashApi Model.MacApi Model.Keccak.
Import ListNotations.
Local Open Scope N_scope.

Section Hmac.
  Variable d : hash.
  Let B := hs_blocksize d.
  (** hmac.c:27-35; size is only used by destroy *)
  Record hmac_st := { hm_hash : hs_st d; hm_r : N; hm_key : list N }.
  (** hmac.c:38-79; key has room for [B] bytes *)
  Definition hmac_init (h : hs_st d) (r : N) (key : list N) (n : nat) : res hmac_st :=
    let* k := if (B <? length key)%nat
      then let* k := hash_all d r [] key n in if (B <? n)%nat then Err OobWrite else Ok (firstn n k)
      else Ok key in
    let k := map (fun x => N.lxor x 0x36) k ++ repeat 0x36 (B - length k) in
    let* h := hash_input d h k in
    Ok {| hm_hash := h; hm_r := r; hm_key := k |}.
  (** hmac.c:117-148 *)
  Definition hmac_create (r : N) (key : list N) (n : nat) : res hmac_st :=
    let* h := hash_create d r [] n in hmac_init h r key n.
  (** hmac.c:150-176 *)
  Definition hmac_recreate (s : hmac_st) (r : N) (key : list N) (n : nat) : res hmac_st :=
    let* h := hash_recreate d (hm_hash s) r [] n in hmac_init h r key n.
  (** hmac.c:81-84 *)
  Definition hmac_input (s : hmac_st) (l : list N) : res hmac_st :=
    let* h := hash_input d (hm_hash s) l in Ok {| hm_hash := h; hm_r := hm_r s; hm_key := hm_key s |}.
  (** hmac.c:86-99 *)
  Definition hmac_tag (s : hmac_st) (len : nat) : res (hmac_st * list N) :=
    let k := map (fun x => N.lxor x 0x6A) (hm_key s) in
    let* q := hash_output d (hm_hash s) len in
    let* h := hash_recreate d (fst q) (hm_r s) [] len in
    let* h := hash_input d h k in
    let* h := hash_input d h (snd q) in
    let* q := hash_output d h len in
    Ok ({| hm_hash := fst q; hm_r := hm_r s; hm_key := k |}, snd q).
  (** hmac.c:178-194 *)
  Definition hmac_desc : mac := {|
    mc_st := hmac_st; mc_create := hmac_create; mc_recreate := hmac_recreate; mc_input := hmac_input; mc_tag := hmac_tag;
    mc_maxtag := hs_maxout d; mc_maxkey := 4294967295 |}.
End Hmac.

(** keccak.c:31-118: the object is a hash object; create (68-118), recreate (52-66), input (37-45), tag (47-50) *)
Definition hash_mac (d : hash) (maxtag : nat) : mac := {|
  mc_st := hs_st d;
  mc_create := fun r key n => let* h := hash_create d r [] n in hash_input d h key;
  mc_recreate := fun s r key n => let* h := hash_recreate d s r [] n in hash_input d h key;
  mc_input := hash_input d; mc_tag := hash_output d; mc_maxtag := maxtag; mc_maxkey := 4294967295 |}.
(** keccak.c:126-150 *)
Definition mac_keccak1600 : mac := hash_mac hash_keccak1600 99.
Definition mac_keccak800 : mac := hash_mac hash_keccak800 49.
