(** Vocabulary for texts shown for debugging. *)
From Coq Require Import NArith List Bool.
From Verif Require Import Base Ucd Norm SpecText SpecViews.
Import ListNotations.
Local Open Scope N_scope.

(** The escape of a tab, line feed or carriage return ends with a letter. *)
Definition letter_of (c x : N) : Prop := In (c, x) [(0x9, 0x74); (0xA, 0x6E); (0xD, 0x72)].
(** The part at the front of a text that is shown as it is. *)
Fixpoint shown (as_is : N -> bool) (s : list N) : list N :=
  match s with c :: t => if as_is c then c :: shown as_is t else [] | [] => [] end.
(** A character shown as it is after the first: not always escaped, and printable. *)
Definition as_is (printable : N -> bool) (c : N) : bool :=
  negb (existsb (N.eqb c) [0; 0x9; 0xA; 0xD; 0x22; 0x27; 0x5C]) && printable c.
(** Where a tab, line feed or carriage return stands, the letter of its escape and what is
    shown after it do not combine: they are in normalization form C together. *)
Definition letters_apart (printable : N -> bool) (s : list N) : Prop :=
  forall a c x b, s = a ++ c :: b -> letter_of c x -> nfc_text (x :: shown (as_is printable) b).
(** What composes with such a letter extends a grapheme. *)
Definition accents_extend (ext : N -> bool) : Prop := forall c x d, letter_of c x -> compose x d <> None -> ext d = true.
