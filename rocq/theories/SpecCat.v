(** Reading texts one after the other. *)
From Coq Require Import NArith List.
From Verif Require Import Base TextUtils IsoFacts Input SpecRead SpecEscape.
Import ListNotations.
Local Open Scope N_scope.

(** A session over [script] delivers [text] and reaches the end. *)
Definition gives (nel lsps : bool) (script : list event) (text : list N) : Prop :=
  exists sizes rs j rest, reads (new_input nel lsps) script sizes = (rs, j, rest) /\ reached_end rs /\ delivered rs = text.
(** A stream without pushes, whose BOM (if any) comes with the first read. *)
Definition regular (script : list event) : Prop := no_push script /\ bom_visible script.
(** No unassigned character of the replaced text follows U+34F. *)
Definition settled (nel lsps : bool) (text : list N) : Prop :=
  forall rs, replaced true (char_rep nel lsps) text rs -> unguarded_text (concat rs).
(** [text] ends with U+A, which does not belong to an escape sequence. *)
Definition ends_line (nel lsps : bool) (text : list N) : Prop :=
  exists x rs, text = x ++ [0xA] /\ replaced true (char_rep nel lsps) text rs /\ last_opt rs = Some [0xA].
(** The first character that is left of [text] is a Basic Text starter. *)
From Verif Require Import SpecText.
Definition begins_ok (nel lsps : bool) (text : list N) : Prop :=
  forall rs, replaced true (char_rep nel lsps) text rs -> starts_ok (concat rs).
