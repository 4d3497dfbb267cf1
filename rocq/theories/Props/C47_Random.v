(** C47: the portable generator of lib/random.c.  [used e0 h (Some s)] (Spec/Random.v): [s] was created with the seed of [e0] and asked as in the history
    [h]; [seed_time] is when its seed was taken, [drawn] the bytes from that seed, [drawn_later] those of them after the request that took it. *)
From Coq Require Import NArith ZArith Arith List Bool.
From Verif Require Import Lib.Res Lib.Bytes Spec.Modes Spec.Hmac Spec.Blake Spec.ScryptOver Spec.Random Model.Mem Model.Chacha Model.Kdf Model.Random Proof.RandomP Proof.RandSeedP.
Import ListNotations.

(** A new seed is taken if the seed is older than 300 seconds or would have given more than 5 MiB after the request it was taken for; the bytes are then
    those of ChaCha20 under the new seed.  Without a new seed there is no output. *)
Theorem C47_renews e0 k0 : ot_seed e0 = Some k0 -> forall h s e m dst len, used e0 h (Some s) -> outside_ok e -> len_ok len ->
  (5242880 < N.of_nat (drawn_later h + len) \/ (300 < ot_now e - seed_time (ot_seeded e0) h)%Z)%N ->
  match ot_seed e with
  | None => rn_gen (Some s) e m dst len = Ok (None, m, 0, false)
  | Some k => exists s' m', rn_gen (Some s) e m dst len = Ok (Some s', m', len, true) /\
      draw_ok k0 h {| dr_len := len; dr_out := rd m' dst len; dr_new := Some (k, ot_seeded e) |} /\ frame m m' dst len
  end.
Proof. exact (gen_renews e0 k0). Qed.
(** Otherwise the stream goes on. *)
Theorem C47_continues e0 k0 : ot_seed e0 = Some k0 -> forall h s e m dst len, used e0 h (Some s) -> outside_ok e -> len_ok len ->
  (N.of_nat (drawn_later h + len) <= 5242880)%N -> (ot_now e - seed_time (ot_seeded e0) h <= 300)%Z ->
  exists s' m', rn_gen (Some s) e m dst len = Ok (Some s', m', len, false) /\ draw_ok k0 h {| dr_len := len; dr_out := rd m' dst len; dr_new := None |} /\ frame m m' dst len.
Proof. exact (gen_continues e0 k0). Qed.
(** What one seed gives: 5 MiB after its first request; with requests of at most [k] bytes, [k] bytes more. *)
Theorem C47_later e0 k0 : ot_seed e0 = Some k0 -> forall h s, used e0 h (Some s) -> (N.of_nat (drawn_later h) <= 5242880)%N.
Proof. exact (drawn_bound e0 k0). Qed.
Theorem C47_small_requests e0 k0 : ot_seed e0 = Some k0 -> forall h s k, used e0 h (Some s) -> (forall d, In d h -> dr_len d <= k) -> (N.of_nat (drawn h) <= N.of_nat k + 5242880)%N.
Proof. exact (drawn_small e0 k0). Qed.
(** The limit of 5 MiB for one seed does not hold: the request that takes a seed is not counted, so that requests within the limit can
    draw 10 MiB, and one request anything. *)
Theorem C47_limit_refuted e0 k0 : ot_seed e0 = Some k0 -> outside_ok e0 -> exists h s, used e0 h (Some s) /\ (forall d, In d h -> (N.of_nat (dr_len d) <= 5242880)%N) /\ N.of_nat (drawn h) = (2 * 5242880)%N.
Proof. exact (drawn_twice e0 k0). Qed.
Theorem C47_request_refuted e0 k0 n : ot_seed e0 = Some k0 -> outside_ok e0 -> len_ok n -> exists h s, used e0 h (Some s) /\ drawn h = n.
Proof. exact (drawn_much e0 k0 n). Qed.
(** A failed reseeding frees the object, which the caller cannot see from the returned length 0: the next call uses freed memory. *)
Theorem C47_after_failure_refuted e m dst len : rn_gen None e m dst len = Err UseAfterFree.
Proof. exact (failed_gone e m dst len). Qed.
(** What seed() makes of the bytes it collects, [e1] and later [e2]: two runs of scrypt over HMAC-BLAKE2s with 2^20 blocks of 1024 bytes, the second with the first
    as salt; scrypt as the code has it (C41).  It always gives 32 bytes, as the theorems above suppose. *)
Theorem C47_seed e1 e2 junk1 junk2 : bytes_ok e1 -> bytes_ok e2 -> 0 < length e1 <= 64 -> 0 < length e2 <= 64 -> length junk1 = scrypt_room (2 ^ 20) 8 -> length junk2 = scrypt_room (2 ^ 20) 8 ->
  let f e salt := over_key 1 2 (hmac 64 (blake2s [] 32) e) 32 (2 ^ 20) 8 1 salt 32 in
  rn_seed e1 e2 junk1 junk2 32 = Ok (f e2 (f e1 [])) /\ length (f e2 (f e1 [])) = 32 /\ bytes_ok (f e2 (f e1 [])).
Proof. exact (seed_ok e1 e2 junk1 junk2). Qed.
Print Assumptions C47_seed.
Example C47_seed_case : exists e1 (junk1 : list N), bytes_ok e1 /\ length e1 = 24 /\ length junk1 = scrypt_room (2 ^ 20) 8.
Proof. exists (repeat 7%N 24), (repeat 0%N (scrypt_room (2 ^ 20) 8)). split; [repeat constructor|]. split; [reflexivity|]. apply repeat_length. Qed.
Print Assumptions C47_renews. Print Assumptions C47_continues. Print Assumptions C47_later. Print Assumptions C47_small_requests. Print Assumptions C47_limit_refuted. Print Assumptions C47_request_refuted.
Print Assumptions C47_after_failure_refuted.

Definition first_seed : outside := {| ot_now := 0; ot_seed := Some (repeat 1%N 32); ot_seeded := 1000 |}.
Definition next_seed (now : Z) : outside := {| ot_now := now; ot_seed := Some (repeat 2%N 32); ot_seeded := now + 5 |}.
Definition renewed (now : Z) : option (bool * list N) := match rn_create first_seed with
  | Ok s => match rn_gen (Some s) (next_seed now) (fun _ => 0%N) 0 4 with Ok (_, m, _, b) => Some (b, rd m 0 4) | _ => None end | _ => None end.
(** the seed of the clock 1000 is used up to 1300 *)
Example C47_case : outside_ok first_seed /\ (exists s, rn_create first_seed = Ok s) /\
  renewed 1300 = Some (false, chacha20 (repeat 1%N 32) [] 0 4) /\ renewed 1301 = Some (true, chacha20 (repeat 2%N 32) (chacha20 (repeat 1%N 32) [] 0 8) 0 4) /\
  (300 < ot_now (next_seed 1301) - seed_time (ot_seeded first_seed) [])%Z.
Proof.
  split. { intros k H. injection H as <-. split; [reflexivity|]. repeat constructor. }
  split. { apply (create_total first_seed (repeat 1%N 32)); [reflexivity|]. intros k H. injection H as <-. split; [reflexivity|]. repeat constructor. }
  split; [vm_compute; reflexivity|]. split; vm_compute; reflexivity.
Qed.
