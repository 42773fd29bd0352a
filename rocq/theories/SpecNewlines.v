(** Texts that differ in how their lines end. *)
From Coq Require Import NArith List.
From Verif Require Import Base.
Import ListNotations.
Local Open Scope N_scope.

(** [t] is [s] with each of its line ends U+A written as U+A, as U+D U+A or as
    U+D.  A U+D does not come before a line end written U+A, which would make
    one line end out of two.  In [s] there is no U+D. *)
Inductive same_lines : list N -> list N -> Prop :=
| sl_nil : same_lines [] []
| sl_char : forall c s t, c <> 0xA -> c <> 0xD -> same_lines s t -> same_lines (c :: s) (c :: t)
| sl_lf : forall s t, same_lines s t -> same_lines (0xA :: s) (0xA :: t)
| sl_crlf : forall s t, same_lines s t -> same_lines (0xA :: s) (0xD :: 0xA :: t)
| sl_cr : forall s t, same_lines s t -> (forall u, t <> 0xA :: u) -> same_lines (0xA :: s) (0xD :: t).

(** [p] occurs in [s]. *)
Definition within (p s : list N) : Prop := exists a b, s = a ++ p ++ b.
(** The row of the Sequence Table for "ESC [ [" takes the character after it,
    whatever it is. *)
Definition cut_line_end : list N := [0x1B; 0x5B; 0x5B; 0xA].
Definition crlf_line_end : list N := [0xD; 0xA].
(** No line end comes right after "ESC [ [", or none is written U+D U+A. *)
Definition whole_ends (s t : list N) : Prop := ~ within cut_line_end s \/ ~ within crlf_line_end t.

(** The whole text in one of the two other conventions. *)
Definition dos (s : list N) : list N := flat_map (fun c => if c =? 0xA then [0xD; 0xA] else [c]) s.
Definition mac (s : list N) : list N := map (fun c => if c =? 0xA then 0xD else c) s.
