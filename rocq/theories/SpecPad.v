(** Vocabulary for formatted texts. *)
From Coq Require Import NArith Arith List Bool.
From Verif Require Import Base SpecText SpecString StdPad.
Import ListNotations.
Local Open Scope N_scope.

(** What is kept of the text: at most as many characters as the precision says. *)
Definition kept (f : format) (s t : list N) : Prop :=
  (exists u, s = t ++ u) /\ length t = match precision f with Some p => Nat.min p (length s) | None => length s end.
(** Where the fill goes: [l] before the text, [r] after it. *)
Definition placed (f : format) (l r : nat) : Prop :=
  match align f with
  | None | Some ALeft => l = 0%nat
  | Some ARight => r = 0%nat
  | Some ACenter => r = l \/ r = Datatypes.S l
  end.
(** No two neighbours are Hangul letters that join into one syllable. *)
Definition no_joins (s : list N) : Prop := forall a x y b, s = a ++ x :: y :: b -> ~ hangul_join x y.
(** A visible ASCII character or a space. *)
Definition ascii_fill (f : format) : Prop := 0x20 <= fill f <= 0x7E.
