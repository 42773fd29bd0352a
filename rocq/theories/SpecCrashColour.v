(** The texts without colours of a history on a duplexer. *)
From Coq Require Import NArith List.
From Verif Require Import SpecFrag SpecDuplexColour.
Import ListNotations.

Definition dfop_pieces (x : dfop) : list (list N) := match x with DFRead _ => [] | DFOut x => fop_pieces x end.
