(** Model of /repo/src/text_string.rs:1112-1116, text_substring.rs:1008-1012 escape_debug
    and of the derived Debug of the text types (text_string.rs:85-111,
    text_substring.rs:80-93).  They delegate to std; which characters std takes to extend a
    grapheme and which it takes to be printable depends on its version: the two tables are
    parameters [ext] and [printable]. *)
From Coq Require Import NArith List Bool.
From Verif Require Import Base Views.
Import ListNotations.
Local Open Scope N_scope.

(** char::escape_debug_ext: [ge] escape_grapheme_extended, [sq] escape_single_quote;
    escape_double_quote is always true here. *)
Definition escape_debug1 (ext printable : N -> bool) (ge sq : bool) (c : N) : list N :=
  if c =? 0 then [0x5C; 0x30]
  else if c =? 0x9 then [0x5C; 0x74]
  else if c =? 0xD then [0x5C; 0x72]
  else if c =? 0xA then [0x5C; 0x6E]
  else if (c =? 0x5C) || (c =? 0x22) || (sq && (c =? 0x27)) then [0x5C; c]
  else if ge && ext c then escape_unicode1 c
  else if printable c then [c]
  else escape_unicode1 c.

(** text_string.rs:1112-1116 escape_debug (str::escape_debug): characters that extend a
    grapheme are escaped only at the start. *)
Definition escape_debug (ext printable : N -> bool) (s : list N) : list N :=
  match s with [] => [] | c :: t => escape_debug1 ext printable true true c ++ flat_map (escape_debug1 ext printable false true) t end.

(** Debug of str: in double quotes; single quotes are not escaped, characters that extend a
    grapheme are, everywhere. *)
Definition debug_str (ext printable : N -> bool) (s : list N) : list N :=
  0x22 :: flat_map (escape_debug1 ext printable true false) s ++ [0x22].

(** text_string.rs:85-87, 109-111, text_substring.rs:80-82, 91-93: the derived Debug of a
    struct with one field ({:?}): the name of the type and the field in parentheses. *)
Definition debug_text (name : list N) (ext printable : N -> bool) (s : list N) : list N :=
  name ++ 0x28 :: debug_str ext printable s ++ [0x29].
