(** What comparison and search are to mean. *)
From Coq Require Import NArith List.
From Verif Require Import Base Chars Utf8.
Import ListNotations.
Local Open Scope N_scope.

(** Lexicographic order of the characters. *)
Definition before (a b : list N) : Prop :=
  (exists c t, b = a ++ c :: t) \/ exists p x y s t, a = p ++ x :: s /\ b = p ++ y :: t /\ x < y.

(** [p] occurs in [s] after [i] bytes. *)
Definition occurs_at (p s : list N) (i : nat) : Prop := exists a b, s = a ++ p ++ b /\ str_len a = i.

(** The matches of [p] in [s], from left to right, without overlap, when [s] starts
    at [pos]. *)
Inductive leftmost (p : list N) : list N -> nat -> list nat -> Prop :=
| no_more : forall s pos, (forall i, ~ occurs_at p s i) -> leftmost p s pos []
| next_match : forall a b pos l, (forall i, occurs_at p (a ++ p ++ b) i -> (str_len a <= i)%nat) ->
    leftmost p b (pos + str_len a + str_len p) l -> leftmost p (a ++ p ++ b) pos ((pos + str_len a)%nat :: l).

(** [ls] are the lines of [s]: no line contains a newline, and [s] is the lines each
    followed by a newline, except that the last newline may be missing if the last line
    is not empty. *)
Definition lines_of (s : list N) (ls : list (list N)) : Prop :=
  Forall (fun l => ~ In LF l) ls /\
  (s = flat_map (fun l => l ++ [LF]) ls \/
   exists init last, ls = init ++ [last] /\ last <> [] /\ s = flat_map (fun l => l ++ [LF]) init ++ last).
