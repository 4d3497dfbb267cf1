(** Histories of a generator of random bytes: what was asked for, newest first. *)
From Coq Require Import NArith ZArith Arith List Bool.
From Verif Require Import Lib.Res Lib.Bytes Spec.Modes Spec.Chacha Model.Mem Model.Random.
Import ListNotations.
Local Open Scope nat_scope.

(** A request: how many bytes, what came out, and whether a new seed was taken for it (which, and when). *)
Record draw := { dr_len : nat; dr_out : list N; dr_new : option (list N * Z) }.
(** when the current seed was taken; the first one at [t0] *)
Fixpoint seed_time (t0 : Z) (h : list draw) : Z :=
  match h with [] => t0 | d :: h => match dr_new d with Some (_, t) => t | None => seed_time t0 h end end.
(** how many bytes came from the current seed: all of them, and those of later requests than the one it was taken for *)
Fixpoint drawn (h : list draw) : nat :=
  match h with [] => 0 | d :: h => dr_len d + (match dr_new d with Some _ => 0 | None => drawn h end) end.
Fixpoint drawn_later (h : list draw) : nat :=
  match h with [] => 0 | d :: h => match dr_new d with Some _ => 0 | None => dr_len d + drawn_later h end end.

(** [n] bytes of ChaCha20 from byte [i] on *)
Definition chacha20 (key iv : list N) (i n : nat) : list N := map (ks_byte 64 (fun b => chacha_ks 0 key iv (N.of_nat b))) (seq i n).
(** key, nonce and position after a history: a seed is a key, 8 more bytes of the old stream the nonce *)
Fixpoint stream_now (k0 : list N) (h : list draw) : list N * list N * nat :=
  match h with
  | [] => (k0, [], 0)
  | d :: h => let '(k, iv, i) := stream_now k0 h in match dr_new d with Some (k', _) => (k', chacha20 k iv i 8, dr_len d) | None => (k, iv, i + dr_len d) end
  end.
(** the bytes a request must give *)
Definition draw_ok (k0 : list N) (h : list draw) (d : draw) : Prop :=
  let '(k, iv, i) := stream_now k0 h in
  dr_out d = match dr_new d with Some (k', _) => chacha20 k' (chacha20 k iv i 8) 0 (dr_len d) | None => chacha20 k iv i (dr_len d) end.

(** Seeds are 32 bytes; requests of all the memory there is do not occur. *)
Definition outside_ok (e : outside) : Prop := forall k, ot_seed e = Some k -> length k = 32 /\ bytes_ok k.
Definition len_ok (len : nat) : Prop := (N.of_nat len + 5242880 < 2 ^ 64)%N.
(** Every way to use a generator, with its history. *)
Inductive used (e0 : outside) : list draw -> option rand -> Prop :=
| used_new s : outside_ok e0 -> rn_create e0 = Ok s -> used e0 [] (Some s)
| used_gen h o e m dst len o' m' n new : used e0 h o -> outside_ok e -> len_ok len -> rn_gen o e m dst len = Ok (o', m', n, new) ->
    used e0 ({| dr_len := n; dr_out := rd m' dst n; dr_new := match ot_seed e with Some k => if new then Some (k, ot_seeded e) else None | None => None end |} :: h) o'.
