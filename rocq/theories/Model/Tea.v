(** lib/block/tea.c *)
From Coq Require Import NArith List.
From Verif Require Import Lib.Word Lib.Res Lib.While Model.LoadStore Model.BlockApi Lib.Bytes.
Import ListNotations.
Local Open Scope N_scope.

(** tea.c:28-33, without [desc] *)
Record tea := { tea_c : N; tea_k : list N }.

Definition tea_delta : N := 0x9E3779B9.

(** tea.c:44 and 45: the term added to a half, with the two key words *)
Definition tea_f (x c ka kb : N) : N :=
  N.lxor (N.lxor (wadd 32 (wshl 32 x 4) ka) (wadd 32 x c)) (wadd 32 (wshr x 5) kb).

(** tea.c:41-46, one iteration; [k[0..3]] is an array of constant size 4 *)
Definition tea_enc_step (s : tea) (st : N * N * N) : (N * N * N) + (N * N) :=
  let '(c, x0, x1) := st in
  let k i := nth i (tea_k s) 0 in
  if c =? tea_c s then inr (x0, x1) else
  let c := wadd 32 c tea_delta in
  let x0 := wadd 32 x0 (tea_f x1 c (k 0%nat) (k 1%nat)) in
  let x1 := wadd 32 x1 (tea_f x0 c (k 2%nat) (k 3%nat)) in
  inl (c, x0, x1).

(** tea.c:58-62, one iteration *)
Definition tea_dec_step (s : tea) (st : N * N * N) : (N * N * N) + (N * N) :=
  let '(c, x0, x1) := st in
  let k i := nth i (tea_k s) 0 in
  if c =? 0 then inr (x0, x1) else
  let x1 := wsub 32 x1 (tea_f x0 c (k 2%nat) (k 3%nat)) in
  let x0 := wsub 32 x0 (tea_f x1 c (k 0%nat) (k 1%nat)) in
  inl (wsub 32 c tea_delta, x0, x1).

(** 2^32 iterations at most: [c] then has run through all its values. *)
Definition tea_bound : positive := 4294967297.

Definition tea_run (step : (N * N * N) -> (N * N * N) + (N * N)) c (x : N * N) : res (N * N) :=
  match wloop tea_bound step (c, fst x, snd x) with
  | inr y => Ok y
  | inl _ => Err Loops
  end.

(** tea.c:35-50 *)
Definition tea_encrypt (s : tea) (pt : list N) : res (list N) :=
  let* y := tea_run (tea_enc_step s) 0 (ld2 (k := 4) (ld := load32b) pt) in
  Ok (st2 (st := store32b) y).

(** tea.c:52-66 *)
Definition tea_decrypt (s : tea) (ct : list N) : res (list N) :=
  let* y := tea_run (tea_dec_step s) (tea_c s) (ld2 (k := 4) (ld := load32b) ct) in
  Ok (st2 (st := store32b) y).

(** tea.c:68-85; the old contents of [s] are overwritten, so [s] does not occur *)
Definition tea_setup (r : N) (key : list N) : tea :=
  {| tea_c := if r =? 0 then 0xC6EF3720 else wmul 32 tea_delta r;
     tea_k := key32b key 4 |}.

Definition tea_maxkey : nat := 16.

(** tea.c:87-101 with the asserts of lib/block.c:37-39 *)
Definition tea_create (r : N) (key : list N) : res tea :=
  assert_ (key_len_ok tea_maxkey key) (Ok (tea_setup r key)).

(** tea.c:68-85 *)
Definition tea_recreate (s : tea) (r : N) (key : list N) : res tea :=
  assert_ (key_len_ok tea_maxkey key) (Ok (tea_setup r key)).
