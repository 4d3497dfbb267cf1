(** include/kripto/rotate.h.  The x86 assembly forms are the [rol]/[ror] instructions, whose count is
    taken modulo the operand width; the portable forms are C expressions on the promoted operand. *)
From Coq Require Import NArith List.
From Verif Require Import Lib.Word Lib.Res.
Import ListNotations.
Local Open Scope N_scope.

(** C shifts of an operand of width [w]: uint8_t and uint16_t are promoted to a 32 bit int, which a left
    shift must not overflow; a count not below the promoted width is undefined. *)
Definition promoted (w : N) : N := if w <? 32 then 32 else w.
Definition c_shl (w x n : N) : res N :=
  if promoted w <=? n then Err BadShift
  else if w <? 32 then (if 2 ^ 31 <=? N.shiftl x n then Err BadShift else Ok (N.shiftl x n))
  else Ok (wshl w x n).
Definition c_shr (w x n : N) : res N := if promoted w <=? n then Err BadShift else Ok (N.shiftr x n).

(** rotate.h:36-37, 78-79, 120-121, 162-163: [r &= w - 1; return (x << r) | (x >> (w - r));] *)
Definition ROL (w x r : N) : res N :=
  let r := N.land r (w - 1) in
  let* a := c_shl w x r in
  let* b := c_shr w x (w - r) in
  Ok (mask w (N.lor a b)).
(** rotate.h:57-58, 99-100, 141-142, 183-184: [(x >> r) | (x << (w - r))] *)
Definition ROR (w x r : N) : res N :=
  let r := N.land r (w - 1) in
  let* a := c_shr w x r in
  let* b := c_shl w x (w - r) in
  Ok (mask w (N.lor a b)).

(** The functions ROLw_r (rotate.h:189-2627, with the macros of each width after its functions), read off the header by tools/rotates.py: width, the number in
    the name, the count of the assembly instruction, the counts of the left and right shift. *)
Definition rol_consts : list (N * N * N * N * N) :=
  [(8,1,1,1,7); (8,2,2,2,6); (8,3,3,3,5); (8,4,4,4,4); (8,5,5,5,3); (8,6,6,6,2); (8,7,7,7,1); (16,1,1,1,15);
   (16,2,2,2,14); (16,3,3,3,13); (16,4,4,4,12); (16,5,5,5,11); (16,6,6,6,10); (16,7,7,7,9); (16,8,8,8,8);
   (16,9,9,9,7); (16,10,10,10,6); (16,11,11,11,5); (16,12,12,12,4); (16,13,13,13,3); (16,14,14,14,2);
   (16,15,15,15,1); (32,1,1,1,31); (32,2,2,2,30); (32,3,3,3,29); (32,4,4,4,28); (32,5,5,5,27); (32,6,6,6,26);
   (32,7,7,7,25); (32,8,8,8,24); (32,9,9,9,23); (32,10,10,10,22); (32,11,11,11,21); (32,12,12,12,20);
   (32,13,13,13,19); (32,14,14,14,18); (32,15,15,15,17); (32,16,16,16,16); (32,17,17,17,15); (32,18,18,18,14);
   (32,19,19,19,13); (32,20,20,20,12); (32,21,21,21,11); (32,22,22,22,10); (32,23,23,23,9); (32,24,24,24,8);
   (32,25,25,25,7); (32,26,26,26,6); (32,27,27,27,5); (32,28,28,28,4); (32,29,29,29,3); (32,30,30,30,2);
   (32,31,31,31,1); (64,1,1,1,63); (64,2,2,2,62); (64,3,3,3,61); (64,4,4,4,60); (64,5,5,5,59); (64,6,6,6,58);
   (64,7,7,7,57); (64,8,8,8,56); (64,9,9,9,55); (64,10,10,10,54); (64,11,11,11,53); (64,12,12,12,52);
   (64,13,13,13,51); (64,14,14,14,50); (64,15,15,15,49); (64,16,16,16,48); (64,17,17,17,47); (64,18,18,18,46);
   (64,19,19,19,45); (64,20,20,20,44); (64,21,21,21,43); (64,22,22,22,42); (64,23,23,23,41); (64,24,24,24,40);
   (64,25,25,25,39); (64,26,26,26,38); (64,27,27,27,37); (64,28,28,28,36); (64,29,29,29,35); (64,30,30,30,34);
   (64,31,31,31,33); (64,32,32,32,32); (64,33,33,33,31); (64,34,34,34,30); (64,35,35,35,29); (64,36,36,36,28);
   (64,37,37,37,27); (64,38,38,38,26); (64,39,39,39,25); (64,40,40,40,24); (64,41,41,41,23); (64,42,42,42,22);
   (64,43,43,43,21); (64,44,44,44,20); (64,45,45,45,19); (64,46,46,46,18); (64,47,47,47,17); (64,48,48,48,16);
   (64,49,49,49,15); (64,50,50,50,14); (64,51,51,51,13); (64,52,52,52,12); (64,53,53,53,11); (64,54,54,54,10);
   (64,55,55,55,9); (64,56,56,56,8); (64,57,57,57,7); (64,58,58,58,6); (64,59,59,59,5); (64,60,60,60,4);
   (64,61,61,61,3); (64,62,62,62,2); (64,63,63,63,1)].
(** The macros [#define RORw_r ROLv_q]: w, r, v, q. *)
Definition ror_macros : list (N * N * N * N) :=
  [(8,1,8,7); (8,2,8,6); (8,3,8,5); (8,4,8,4); (8,5,8,3); (8,6,8,3); (8,7,8,1); (16,1,16,15); (16,2,16,14);
   (16,3,16,13); (16,4,16,12); (16,5,16,11); (16,6,16,10); (16,7,16,9); (16,8,16,8); (16,9,16,7);
   (16,10,16,6); (16,11,16,5); (16,12,16,4); (16,13,16,3); (16,14,16,2); (16,15,16,1); (32,1,32,31);
   (32,2,32,30); (32,3,32,29); (32,4,32,28); (32,5,32,27); (32,6,32,26); (32,7,32,25); (32,8,32,24);
   (32,9,32,23); (32,10,32,22); (32,11,32,21); (32,12,32,20); (32,13,32,19); (32,14,32,18); (32,15,32,17);
   (32,16,32,16); (32,17,32,15); (32,18,32,14); (32,19,32,13); (32,20,32,12); (32,21,32,11); (32,22,32,10);
   (32,23,32,9); (32,24,32,8); (32,25,32,7); (32,26,32,6); (32,27,32,5); (32,28,32,4); (32,29,32,3);
   (32,30,32,2); (32,31,32,1); (64,1,64,63); (64,2,64,62); (64,3,64,61); (64,4,64,60); (64,5,64,59);
   (64,6,64,58); (64,7,64,57); (64,8,64,56); (64,9,64,55); (64,10,64,54); (64,11,64,53); (64,12,64,52);
   (64,13,64,51); (64,14,64,50); (64,15,64,49); (64,16,64,48); (64,17,64,47); (64,18,64,46); (64,19,64,45);
   (64,20,64,44); (64,21,64,43); (64,22,64,42); (64,23,64,41); (64,24,64,40); (64,25,64,39); (64,26,64,38);
   (64,27,64,37); (64,28,64,36); (64,29,64,35); (64,30,64,34); (64,31,64,33); (64,32,64,32); (64,33,64,31);
   (64,34,64,30); (64,35,64,29); (64,36,64,28); (64,37,64,27); (64,38,64,26); (64,39,64,25); (64,40,64,24);
   (64,41,64,23); (64,42,64,22); (64,43,64,21); (64,44,64,20); (64,45,64,19); (64,46,64,18); (64,47,64,17);
   (64,48,64,16); (64,49,64,15); (64,50,64,14); (64,51,64,13); (64,52,64,12); (64,53,64,11); (64,54,64,10);
   (64,55,64,9); (64,56,64,8); (64,57,64,7); (64,58,64,6); (64,59,64,5); (64,60,64,4); (64,61,64,3);
   (64,62,64,2); (64,63,64,1)].

(** the portable body of ROLw_r: [return (x << a) | (x >> b);] *)
Definition ROL_const (w a b x : N) : res N :=
  let* p := c_shl w x a in
  let* q := c_shr w x b in
  Ok (mask w (N.lor p q)).
(** ROLw_r as named, and RORw_r through its macro *)
Definition find_rol (w r : N) : option (N * N * N) :=
  match find (fun e => let '(w', r', _, _, _) := e in (w =? w') && (r =? r'))%bool rol_consts with
  | Some (_, _, c, a, b) => Some (c, a, b) | None => None end.
Definition find_ror (w r : N) : option (N * N * N) :=
  match find (fun e => let '(w', r', _, _) := e in (w =? w') && (r =? r'))%bool ror_macros with
  | Some (_, _, v, q) => find_rol v q | None => None end.
