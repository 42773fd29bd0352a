(** Streams with pushes. *)
From Coq Require Import NArith List.
From Verif Require Import Base Input SpecRead SpecEscape SpecConv.
Import ListNotations.
Local Open Scope N_scope.

(** The texts between the pushes of a stream; the last one goes up to the end. *)
Fixpoint segments (script : list event) : list (list N) :=
  match script with
  | [] => [[]]
  | Chunk cs End :: _ => [cs]
  | Chunk cs Push :: t => cs :: segments t
  | Chunk cs Active :: t => match segments t with s :: r => (cs ++ s) :: r | [] => [cs] end
  | Fail :: t => segments t
  end.
(** ... without the BOM at the beginning. *)
Definition segments_read (script : list event) : list (list N) :=
  match segments script with s :: r => without_bom s :: r | [] => [] end.

(** Each segment on its own: its sequences replaced, U+34F where it starts or
    ends badly; then the final line end. *)
Definition guarded (rs : list (list N)) : list N := guard_end (guard_start (concat rs)).
Definition pushed_text (rss : list (list (list N))) : list N := concat (map guarded rss) ++ final_newline (concat rss).

(** Every push comes after a line end that belongs to no escape sequence, and
    what follows a push begins with a Basic Text starter. *)
From Verif Require Import SpecCat.
Definition line_by_line (nel lsps : bool) (segs : list (list N)) : Prop :=
  Forall (ends_line nel lsps) (removelast segs) /\ Forall (begins_ok nel lsps) (tl segs).
(** No unassigned character of the text between the pushes follows U+34F. *)
Definition settled_segments (nel lsps : bool) (segs : list (list N)) : Prop :=
  forall rss, Forall2 (replaced true (char_rep nel lsps)) segs rss -> IsoFacts.unguarded_text (pushed_text rss).
(** What is left of the text is nothing, or ends with U+A. *)
Definition whole_lines (nel lsps : bool) (segs : list (list N)) : Prop :=
  forall rss, Forall2 (replaced true (char_rep nel lsps)) segs rss -> concat rss = [] \/ last_opt (concat rss) = Some [0xA].
