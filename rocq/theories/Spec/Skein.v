(** Ferguson and others, "The Skein hash function family" 1.3: sections 3.4 (UBI), 3.5 (Skein).  Bytes only, no
    bit padding, no tree hashing. *)
From Coq Require Import String.
From Coq Require Import NArith Arith List Bool.
From Verif Require Import Lib.Bytes Spec.Words Spec.Modes Spec.Arx.
Import ListNotations.
Local Open Scope string_scope.
Local Open Scope N_scope.

Section Skein.
  (** block size in bytes, Threefish: key, tweak, plaintext *)
  Variables (bs : nat) (E : list N -> list N -> list N -> list N).
  (** Table 5: position (96 bits), reserved, tree level, bit pad; type, first, final *)
  Definition sk_tweak (pos ty : N) (first final : bool) : list N :=
    le_bytes 12 pos ++ [0; 0; 0; ty + (if first then 64 else 0) + (if final then 128 else 0)].
  Definition ubi_compress (G b : list N) (pos ty : N) (first final : bool) : list N :=
    xor_bytes (E G (sk_tweak pos ty first final) b) b.
  (** [dd] blocks of the zero padded message *)
  Definition ubi_n (dd : nat) (G M : list N) (ty : N) : list N :=
    let P := zero_pad (dd * bs) M in
    fold_left (fun G i => ubi_compress G (block bs i P) (N.of_nat (Nat.min (List.length M) ((i + 1) * bs))) ty
      (Nat.eqb i 0) (Nat.eqb (i + 1) dd)) (seq 0 dd) G.
  (** section 3.4: the number of blocks is max(1, ceil(len / bs)) *)
  Definition ubi_blocks (len : nat) : nat := Nat.max 1 ((len + bs - 1) / bs).
  Definition ubi (G M : list N) (ty : N) : list N := ubi_n (ubi_blocks (List.length M)) G M ty.
  (** Table 6: key, configuration, nonce, message, output *)
  Definition ty_key := 0. Definition ty_cfg := 4. Definition ty_non := 20. Definition ty_msg := 48. Definition ty_out := 63.
  (** Table 7: schema "SHA3", version 1, reserved, output length in bits, no tree *)
  Definition sk_config (bits : N) : list N :=
    ascii_bytes "SHA3" ++ le_bytes 2 1 ++ [0; 0] ++ le_bytes 8 bits ++ repeat 0 16.
  (** section 3.5.4: Output(G, n bytes) *)
  Definition sk_output (G : list N) (n : nat) : list N :=
    firstn n (flat_map (fun i => ubi G (le_bytes 8 (N.of_nat i)) ty_out) (seq 0 ((n + bs - 1) / bs))).
  (** Skein(n bytes; key, message), the key omitted when empty.  [dd] is the number of message blocks. *)
  Definition skein_n (dd : nat) (key : list N) (n : nat) (M : list N) : list N :=
    let K := match key with [] => repeat 0 bs | _ => ubi (repeat 0 bs) key ty_key end in
    sk_output (ubi_n dd (ubi K (sk_config (8 * N.of_nat n)) ty_cfg) M ty_msg) n.
  Definition skein (key : list N) (n : nat) (M : list N) : list N := skein_n (ubi_blocks (List.length M)) key n M.
  (** Skein in the stream mode (section 4.10): the output of Skein with a key and a nonce, without end *)
  Definition skein_stream_block (key nonce : list N) (bits : N) (i : nat) : list N :=
    let K := ubi (repeat 0 bs) key ty_key in
    let G := ubi K (sk_config bits) ty_cfg in
    let G := match nonce with [] => G | _ => ubi G nonce ty_non end in
    ubi G (le_bytes 8 (N.of_nat i)) ty_out.
End Skein.

Definition skein256 := skein 32 threefish256_cipher.
Definition skein512 := skein 64 threefish512_cipher.
Definition skein1024 := skein 128 threefish1024_cipher.
