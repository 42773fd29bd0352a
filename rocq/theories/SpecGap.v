(** Where U+34F is put around unassigned characters, place by place.  A place is
    between two characters of a text, before its first one or after its last
    one. *)
From Coq Require Import NArith List Bool.
From Verif Require Import Base TextUtils.
Import ListNotations.
Local Open Scope N_scope.

Definition at_cgj (o : option N) : bool := match o with Some c => c =? 0x34F | None => false end.
Definition at_unassigned (o : option N) : bool := match o with Some c => negb (is_assigned c) | None => false end.

(** [pp] and [p] are the characters before the place, [c] the one after it.
    /repo/docs/BasicText.md:182-185: before and after each unassigned character,
    unless U+34F is there already. *)
Definition documented_place (pp p c : option N) : bool :=
  negb (at_cgj p) && negb (at_cgj c) && (at_unassigned p || at_unassigned c).

(** The same, but not after an unassigned character that follows U+34F. *)
Definition coded_place (pp p c : option N) : bool :=
  negb (at_cgj p) && negb (at_cgj c) && (at_unassigned p && negb (at_cgj pp) || at_unassigned c).

(** The text [s], with [pp] and [p] before it, with U+34F at these places. *)
Fixpoint filled (place : option N -> option N -> option N -> bool) (pp p : option N) (s : list N) : list N :=
  match s with
  | [] => if place pp p None then [0x34F] else []
  | c :: t => (if place pp p (Some c) then [0x34F] else []) ++ c :: filled place p (Some c) t
  end.
Definition documented_isolation (s : list N) : list N := filled documented_place None None s.
Definition coded_isolation (s : list N) : list N := filled coded_place None None s.

(** The conversion after the replacements, as the code does it: CJK compatibility
    ideographs become Standardized Variants ([cjk1], Unicode data), and the last
    two steps of /repo/docs/BasicText.md:186-187. *)
Definition coded_form (s : list N) : list N := Norm.nfc (Norm.stream_safe (flat_map Norm.cjk1 (coded_isolation s))).
