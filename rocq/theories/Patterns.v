(** Model of the search functions of TextStr and TextSubstr (text_string.rs:832-1029,
    text_substring.rs:727-924, built with cfg(pattern)) for a pattern that looks at single
    characters: a char, a slice of chars or a closure from char to bool.  [P] is the
    closure; a char is [N.eqb c] and a slice [fun c => mem c chars]. *)
From Coq Require Import NArith List Bool.
From Verif Require Import Base Chars Utf8 Views.
Import ListNotations.
Local Open Scope N_scope.

(** core::str::pattern, MultiCharEqPattern: char_indices, and the characters that match *)
Definition by_match_indices (P : N -> bool) (s : list N) : list nat := map fst (filter (fun x => P (snd x)) (char_indices s)).
(** text_string.rs:1015-1029 rmatch_indices: char_indices from the back *)
Definition by_rmatch_indices (P : N -> bool) (s : list N) : list nat := map fst (filter (fun x => P (snd x)) (rev (char_indices s))).
(** text_string.rs:902-917 find: the first match *)
Fixpoint by_find_from (P : N -> bool) (pos : nat) (s : list N) : option nat :=
  match s with [] => None | c :: t => if P c then Some pos else by_find_from P (pos + utf8_len c) t end.
(** text_string.rs:902-917 find *)
Definition by_find (P : N -> bool) (s : list N) : option nat := by_find_from P 0 s.
(** text_string.rs:925-941 rfind: the first match from the back; [len] is the number of
    bytes up to the character looked at *)
Fixpoint by_rfind_from (P : N -> bool) (len : nat) (rs : list N) : option nat :=
  match rs with [] => None | c :: t => if P c then Some (len - utf8_len c)%nat else by_rfind_from P (len - utf8_len c) t end.
(** text_string.rs:925-941 rfind *)
Definition by_rfind (P : N -> bool) (s : list N) : option nat := by_rfind_from P (str_len s) (rev s).
(** text_string.rs:832-847 contains *)
Definition by_contains (P : N -> bool) (s : list N) : bool := match by_find P s with Some _ => true | None => false end.
(** text_string.rs:855-870 starts_with: the first character *)
Definition by_starts_with (P : N -> bool) (s : list N) : bool := match s with c :: _ => P c | [] => false end.
(** text_string.rs:878-894 ends_with: the last character *)
Definition by_ends_with (P : N -> bool) (s : list N) : bool := match last_opt s with Some c => P c | None => false end.
