(** What a reader can know of the converted text before the stream has ended,
    and how the text is cut by the reads of the stream. *)
From Coq Require Import NArith List Bool.
From Verif Require Import Base Input SpecRead SpecEscape SpecConv SpecPush SpecGap SpecCut.
Import ListNotations.
Local Open Scope N_scope.

(** The text [p] is the beginning of a text that may go on in any way.  A sequence
    is certain if it is the longest one whatever follows; [rs] are the replacements
    of the sequences that are certain.  What comes after them is nothing or may be
    the beginning of a longer sequence. *)
Inductive certain (can : bool) (rep : N -> list N) : list N -> list (list N) -> Prop :=
| certain_none : certain can rep [] []
| certain_open : forall b z r, z <> [] -> row can rep (b ++ z) r -> certain can rep b []
| certain_cons : forall m r rest rs, row can rep m r -> (forall z, longest can rep m (m ++ rest ++ z)) ->
    certain can rep rest rs -> certain can rep (m ++ rest) (r :: rs).

(** The converted text that is known after the events [x] of a stream that goes
    on: the text between pushes, and of the rest what is certain. *)
Definition known (nel lsps : bool) (x : list event) (T : list N) : Prop :=
  exists rss rs, Forall2 (replaced true (char_rep nel lsps)) (removelast (segments_read x)) rss /\
    certain true (char_rep nel lsps) (last (segments_read x) []) rs /\ T = concat (map guarded rss) ++ guard_start (concat rs).

(** The beginnings of a script after which the stream is read again. *)
Fixpoint cuts (x script : list event) : list (list event) :=
  match script with
  | [] => []
  | Chunk cs End :: _ => []
  | Chunk cs s :: t => (x ++ [Chunk cs s]) :: cuts (x ++ [Chunk cs s]) t
  | Fail :: t => cuts x t
  end.

(** The text up to its last U+A or U+34F. *)
Fixpoint whole_part (T : list N) : list N :=
  match T with
  | [] => []
  | c :: t => match whole_part t with
              | [] => if (c =? 0xA) || (c =? 0x34F) then [c] else []
              | u => c :: u
              end
  end.
(** The text [T1], [T2] ... as it becomes known, converted step by step; [d] has been
    converted already. *)
Fixpoint step_by_step (d : list N) (Ts : list (list N)) : list N :=
  match Ts with
  | [] => []
  | T :: t => coded_form (skipn (length d) (whole_part T)) ++ step_by_step (whole_part T) t
  end.

(** Somewhere the stream is read again although the text known so far ends between
    U+34F and an unassigned character, or what follows begins with one. *)
Definition cut_badly (nel lsps : bool) (script : list event) (text : list N) : Prop :=
  exists x T R, In x (cuts [] script) /\ known nel lsps x T /\ text = T ++ R /\ bad_cut T R.
