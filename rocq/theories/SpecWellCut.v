(** Streams that are not read again between U+34F and an unassigned character. *)
From Coq Require Import NArith List.
From Verif Require Import Base Input SpecRead SpecEscape SpecConv SpecPush SpecCut SpecCertain.
Import ListNotations.
Local Open Scope N_scope.

(** Nowhere is the stream read again although the converted text known so far ends
    between U+34F and an unassigned character. *)
Definition well_cut (nel lsps : bool) (script : list event) : Prop :=
  forall rss, Forall2 (replaced true (char_rep nel lsps)) (segments_read script) rss -> ~ cut_badly nel lsps script (pushed_text rss).
