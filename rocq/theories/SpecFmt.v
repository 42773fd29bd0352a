(** Formatted text that is written in pieces (C98). *)
From Coq Require Import NArith List Bool.
From Verif Require Import Base Ucd Norm Chars TextUtils.
Import ListNotations.
Local Open Scope N_scope.

(** The pieces that hold any text. *)
Definition nonempty (ps : list (list N)) : list (list N) := filter (fun p => match p with [] => false | _ => true end) ps.

(** A piece that does not depend on the text before it: its first character is
    assigned, may begin a Basic Text, and is not a grapheme joiner. *)
Definition begins_alone (b : list N) : Prop :=
  exists c u, b = c :: u /\ is_basic_text_start c = true /\ is_assigned c = true /\ c <> 0x34F.
