(** The conversion of a Unicode stream documented in
    /repo/docs/BasicText.md:173-189 and 231-238 (without the compatibility
    options), step by step. *)
From Coq Require Import NArith List Bool.
From Verif Require Import Base Ucd Norm Chars TextUtils DocTable SpecText SpecEscape SpecRead.
Import ListNotations.
Local Open Scope N_scope.

(** The Replacement column for one scalar value.  CJK compatibility ideographs
    become their Standardized Variant, which is Unicode data ([cjk1]). *)
Definition doc_rep (c : N) : list N :=
  match doc_lookup c with
  | Some (Fixed r) => r
  | Some Variant => cjk1 c
  | None => [c]
  end.

(** Rows of the table for which the code does not do what the table says, or
    only up to normalization of the result: U+F77 and U+F79 are replaced by a
    composed form (which can move a U+34F inserted by the Stream-Safe process),
    and the row of U+FB03 is wrong. *)
Definition odd_row (c : N) : bool := (c =? 0xF77) || (c =? 0xF79) || (c =? 0xFB03).

(** The line end that is added after the last sequence: none if there is no
    text or the last replacement is a line end. *)
Definition final_newline (rs : list (list N)) : list N :=
  match last_opt rs with
  | None => []
  | Some r => if list_eqb r [0xA] then [] else [0xA]
  end.

(** "If the stream is non-empty and doesn't end with U+A or U+D, append a U+A." *)
Definition with_newline (s : list N) : list N :=
  match last_opt s with
  | None => s
  | Some c => if (c =? 0xA) || (c =? 0xD) then s else s ++ [0xA]
  end.

(** U+34F before and after each unassigned scalar value, where it is missing;
    [prev] tells whether the previous character is U+34F. *)
Fixpoint isolated_form (prev : bool) (s : list N) : list N :=
  match s with
  | [] => []
  | c :: t =>
      if is_assigned c then c :: isolated_form (c =? 0x34F) t
      else (if prev then [] else [0x34F]) ++
           c :: match t with
                | d :: _ => if d =? 0x34F then isolated_form false t else 0x34F :: isolated_form true t
                | [] => [0x34F]
                end
  end.

(** The documented conversion; [rs] are the replacements of the sequences found
    in the text. *)
Definition documented_from (text : list N) (rs : list (list N)) (out : list N) : Prop :=
  replaced false doc_rep (guard_end (guard_start (with_newline (without_bom text)))) rs /\
  out = nfc (stream_safe (isolated_form false (concat rs))).
