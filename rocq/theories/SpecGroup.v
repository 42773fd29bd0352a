(** Specification: how a BufWriter or a LineWriter of any size groups the bytes written to
    it. *)
From Coq Require Import NArith List Bool.
From Verif Require Import Base Utf8 Input.
Import ListNotations.
Local Open Scope N_scope.

(** What a buffer with room for [cap] bytes, holding [h], passes on when [p] is written, and
    what it holds then: [p] joins [h] if both fit, but [p] alone is never held if it would
    fill the buffer. *)
Definition held (cap : nat) (h p : list N) : list (list N) * list N :=
  if Nat.ltb (length p) cap && Nat.leb (length h + length p) cap then ([], h ++ p)
  else if Nat.ltb (length p) cap then ([h], p)
  else ([h; p], []).
(** The groups of bytes passed on, for the pieces [ps] written when [h] is held, and the
    flush at the end.  [lines]: a LineWriter, which passes on all that it holds up to the
    last line end of a piece. *)
Inductive passed_on (lines : bool) (cap : nat) : list N -> list (list N) -> list (list N) -> Prop :=
| passed_end : forall h, passed_on lines cap h [] [h]
| passed_plain : forall h p ps gs, lines = false \/ ~ In 0xA p ->
    passed_on lines cap (snd (held cap h p)) ps gs -> passed_on lines cap h (p :: ps) (fst (held cap h p) ++ gs)
| passed_lines : forall h l p ps gs, lines = true -> ~ In 0xA p ->
    passed_on lines cap (snd (held cap [] p)) ps gs ->
    passed_on lines cap h ((l ++ 0xA :: p) :: ps)
      (fst (held cap h (l ++ [0xA])) ++ [snd (held cap h (l ++ [0xA]))] ++ fst (held cap [] p) ++ gs).
(** The bytes of whole characters. *)
Definition whole_characters (bs : list N) : Prop := exists s, scalars s /\ bs = encode_all s.
