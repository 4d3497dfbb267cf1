(** lib/random.c without KRIPTO_UNIX and KRIPTO_WINDOWS: the portable generator, ChaCha keyed by seeds.  A call is given the 32 bytes of a seed, or none
    if seed() fails; [rn_seed] is what seed() makes of the bytes it collects. *)
From Coq Require Import NArith ZArith Arith List Bool.
From Verif Require Import Lib.Res Lib.Bytes Model.Mem Model.Modes Model.Chacha Model.Hmac Model.Blake Model.Kdf.
Import ListNotations.

(** random.c:75-81; time_t counts seconds *)
Record rand := { rn_stream : chacha; rn_time : Z; rn_output : N }.
(** random.c:48, 52 *)
Definition reseed_output : N := 5242880.
Definition reseed_time : Z := 300.
(** What a call finds: the clock when it asks for it, the seed, and the clock at the end of seed(). *)
Record outside := { ot_now : Z; ot_seed : option (list N); ot_seeded : Z }.

(** random.c:153-178, and 147-148 *)
Definition rn_create (e : outside) : res rand :=
  match ot_seed e with
  | None => Err NullRet
  | Some k => let* st := chacha_create 0 k [] in Ok {| rn_stream := st; rn_time := ot_seeded e; rn_output := 0 |}
  end.
(** random.c:252-281: size_t has 64 bits; the object may be gone ([None]): 277-280 free it.  The result: object, memory, returned length; and
    whether a new seed was used. *)
Definition rn_gen (o : option rand) (e : outside) (m : mem) (dst len : nat) : res (option rand * mem * nat * bool) :=
  match o with
  | None => Err UseAfterFree
  | Some s =>
    let output := ((rn_output s + N.of_nat len) mod 2 ^ 64)%N in
    if (reseed_output <? output)%N || (reseed_time <? ot_now e - rn_time s)%Z then
      let* p := chacha_prng (rn_stream s) (fun _ => 0%N) 0 8 in
      match ot_seed e with
      | None => Ok (None, m, 0, false)
      | Some k =>
        let* st := chacha_recreate (fst p) 0 k (rd (snd p) 0 8) in
        let* q := chacha_prng st m dst len in
        Ok (Some {| rn_stream := fst q; rn_time := ot_seeded e; rn_output := 0 |}, snd q, len, true)
      end
    else
      let* q := chacha_prng (rn_stream s) m dst len in
      Ok (Some {| rn_stream := fst q; rn_time := rn_time s; rn_output := output |}, snd q, len, false)
  end.

(** random.c:88-151: [e1] and [e2] are the bytes of the struct entropy (90-101: time, clock and four bytes not set, the second time those of a pointer) when
    scrypt is called (117-124, 136-143); [junk1] and [junk2] are what malloc gives scrypt.  The second salt is the first output, in the place of the second
    output: scrypt reads it (scrypt.c:230-241) before it writes that (246-257).  The wipe of the struct (145) is left out, and seed() fails only if malloc does. *)
Definition rn_seed (e1 e2 junk1 junk2 : list N) (len : nat) : res (list N) :=
  let* out := scrypt (hmac_desc hash_blake2s) 0 1048576 8 1 e1 [] len junk1 in
  scrypt (hmac_desc hash_blake2s) 0 1048576 8 1 e2 out len junk2.
