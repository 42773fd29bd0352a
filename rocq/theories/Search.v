(** Model of the comparison, search and line functions of TextStr and TextSubstr
    (/repo/src/text_string.rs, /repo/src/text_substring.rs), which apply those of
    str to the bytes. *)
From Coq Require Import NArith List Bool.
From Verif Require Import Base Chars Utf8.
Import ListNotations.
Local Open Scope N_scope.

(** Ord for [u8] *)
Fixpoint cmp_bytes (a b : list N) : comparison :=
  match a, b with
  | [], [] => Eq
  | [], _ :: _ => Lt
  | _ :: _, [] => Gt
  | x :: a', y :: b' => match N.compare x y with Eq => cmp_bytes a' b' | r => r end
  end.
(** text_string.rs:1199-1218, text_substring.rs:1088-1107 cmp, partial_cmp: Ord for str *)
Definition text_cmp (a b : list N) : comparison := cmp_bytes (encode_all a) (encode_all b).

(** partial_eq.rs:7-524: every combination of the four types, str, String and Cow
    compares the contents *)
Definition text_eq (a b : list N) : bool := list_eqb (encode_all a) (encode_all b).

(** <[u8]>::starts_with *)
Fixpoint has_prefix (p s : list N) : bool :=
  match p, s with
  | [], _ => true
  | x :: p', y :: s' => (x =? y) && has_prefix p' s'
  | _ :: _, [] => false
  end.
(** the first place where [p] occurs *)
Fixpoint find_bytes (p s : list N) : option nat :=
  if has_prefix p s then Some 0%nat
  else match s with
       | [] => None
       | _ :: t => option_map S (find_bytes p t)
       end.
(** the last place *)
Fixpoint rfind_bytes (p s : list N) : option nat :=
  match s with
  | [] => if has_prefix p s then Some 0%nat else None
  | _ :: t => match rfind_bytes p t with
              | Some i => Some (S i)
              | None => if has_prefix p s then Some 0%nat else None
              end
  end.

(** text_string.rs:832-847, 855-870, 878-894, 902-917, 925-941, text_substring.rs:727-836,
    for a string pattern *)
Definition text_find (s p : list N) : option nat := find_bytes (encode_all p) (encode_all s).
(** text_string.rs:925-941 rfind *)
Definition text_rfind (s p : list N) : option nat := rfind_bytes (encode_all p) (encode_all s).
(** text_string.rs:832-847 contains *)
Definition text_contains (s p : list N) : bool := match text_find s p with Some _ => true | None => false end.
(** text_string.rs:855-870 starts_with *)
Definition text_starts_with (s p : list N) : bool := has_prefix (encode_all p) (encode_all s).
(** text_string.rs:878-894 ends_with *)
Definition text_ends_with (s p : list N) : bool := has_prefix (rev (encode_all p)) (rev (encode_all s)).

(** text_string.rs:994-1007, text_substring.rs:889-902 match_indices, for a pattern
    that is not empty: the search goes on after each match *)
Fixpoint matches_go (p s : list N) (skip pos : nat) : list nat :=
  match s with
  | [] => []
  | _ :: t => match skip with
              | S k => matches_go p t k (S pos)
              | O => if has_prefix p s then pos :: matches_go p t (length p - 1) (S pos) else matches_go p t 0 (S pos)
              end
  end.
(** an empty pattern matches at the beginning and after every character (core::str::pattern,
    EmptyNeedle) *)
Fixpoint boundaries (s : list N) (pos : nat) : list nat :=
  pos :: match s with [] => [] | c :: t => boundaries t (pos + utf8_len c) end.
(** text_string.rs:994-1007: on the bytes *)
Definition text_match_indices (s p : list N) : list nat :=
  match p with [] => boundaries s 0 | _ => matches_go (encode_all p) (encode_all s) 0 0 end.
(** text_string.rs:949-964, text_substring.rs:844-859 matches: the matches themselves *)
Definition text_matches (s p : list N) : list (list N) := map (fun i => firstn (length (encode_all p)) (skipn i (encode_all s))) (text_match_indices s p).

(** str::lines (text_string.rs:816-818, text_substring.rs:711-713): lines end with '\n',
    which is removed, and a '\r' before it too *)
Definition chomp_cr (l : list N) : list N := match last_opt l with Some c => if c =? CR then removelast l else l | None => l end.
(** str::lines: the loop; [cur] is the line so far *)
Fixpoint str_lines_go (s cur : list N) : list (list N) :=
  match s with
  | [] => match cur with [] => [] | _ => [cur] end
  | c :: t => if c =? LF then chomp_cr cur :: str_lines_go t [] else str_lines_go t (cur ++ [c])
  end.
(** text_string.rs:816-818 lines *)
Definition str_lines (s : list N) : list (list N) := str_lines_go s [].
