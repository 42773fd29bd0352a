(** Model of the places outside the conversions that make texts without checking:
    the literal macros of /repo/literals/src/lib.rs, and the Arbitrary instances in
    /repo/src/text_string.rs and /repo/src/text_substring.rs. *)
From Coq Require Import NArith List Bool.
From Verif Require Import Base Chars TextUtils Utf8 Strings.
Import ListNotations.
Local Open Scope N_scope.

(** literals/src/lib.rs:9-25 text and 30-46 text_substr, for the checks
    [is_basic_text] and [is_basic_text_substr].  [None] is a compile error. *)
Definition literal (check : list N -> bool) (s : list N) : option (list N) := if check s then Some s else None.

(** text_string.rs:1393-1410 and text_substring.rs:1214-1231 Arbitrary::arbitrary:
    [b] are the bytes of the chosen size at the front of the input; the result is
    the bytes of the text that is made.  [None] is a panic in computing the error
    position.  The debug assertion, which is checked in debug builds only, is
    left out. *)
Definition arbitrary (check : list N -> bool) (b : list N) : option (list N) :=
  match from_bytes (str_from_text check) b with
  | TOk _ => Some b
  | TErr (Some i) => Some (firstn i b)
  | TErr None => None
  end.

(** text_string.rs:1412-1417 and text_substring.rs:1233-1238 arbitrary_take_rest.
    [None] is Error::IncorrectFormat. *)
Definition arbitrary_take_rest (check : list N -> bool) (b : list N) : option (list N) :=
  match from_bytes (str_from_text check) b with
  | TOk _ => Some b
  | TErr _ => None
  end.
