(** How far a write looks beyond a character that it refuses. *)
From Coq Require Import NArith List.
From Verif Require Import Base Ucd Norm Chars TextUtils Output NormIter.
Import ListNotations.
Local Open Scope N_scope.

(** The number of characters of combining class 0 in the decomposition of a text
    (in which refused characters count as U+1A). *)
Definition bases (u : list N) : nat :=
  length (filter (fun c => ccc c =? 0) (flat_map cd (stream_safe (cjk_compat_variants (isolate_unassigned (categorize u)))))).
(** The part of [b] that is looked at: up to the second of them. *)
Definition looked_at (b : list N) (k : nat) : Prop :=
  (k <= length b)%nat /\ (forall j, (j < k)%nat -> (bases (firstn j b) < 2)%nat) /\ (k = length b \/ (2 <= bases (firstn k b))%nat).
(** Text for which no conversion is needed, so that it is looked at one character
    at a time. *)
Definition quick_text (x : list N) : Prop := is_nfc_stream_safe_quick x = Yes /\ forallb is_public_assigned x = true.
(** The outcome of a write, with the error reported if a character is refused. *)
Definition outcome_of (r : wresult * writer) (e : option basic_text_error) : write_outcome * writer :=
  match r with (None, w) => (WFine, w) | (Some EWCheck, w) => (WRefused e, w) | (Some x, w) => (WOther x, w) end.

(** The state after [n] characters have been asked for. *)
Fixpoint after (n fuel : nat) (r : recomposer) : recomposer :=
  match n with O => r | S n' => after n' fuel (snd (rec_next fuel r)) end.
(** The number of characters in the buffers of the iterators. *)
Definition held_opt (o : option N) : list N := match o with Some c => [c] | None => [] end.
Definition held (r : recomposer) : nat :=
  let d := rec_src r in let s := dec_src d in let p := safe_src s in
  length (held_opt (deferred (rep_src p)) ++ held_opt (rep_buf p) ++ held_opt (safe_buf s) ++ pending d ++ held_opt (composee r) ++ rec_buf r).
