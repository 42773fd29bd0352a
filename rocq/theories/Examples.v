(** Model of /repo/examples/nfc-cat.rs and /repo/examples/ssnfc-cat.rs: filters that
    normalize their input line by line; and of /repo/examples/text-cat.rs. *)
From Coq Require Import NArith List Bool.
From Verif Require Import Base Ucd Norm Chars Utf8 Input Copy Lines.
Import ListNotations.
Local Open Scope N_scope.

(** quick_check.rs (unicode-normalization): quick_check with stream_safe = false and
    tables::qc_nfc; is_nfc_quick *)
Fixpoint quick_check_plain (last_cc : N) (result : is_normalized) (s : list N) : is_normalized :=
  match s with
  | [] => result
  | ch :: t =>
      if ch <=? 0x7F then quick_check_plain 0 result t
      else
        let cc := ccc ch in
        if (cc <? last_cc) && negb (cc =? 0) then No
        else
          match qc_nfc ch with
          | No => No
          | q => quick_check_plain cc (match q with Maybe => Maybe | _ => result end) t
          end
  end.
(** is_nfc_quick, used in nfc-cat.rs:15 *)
Definition is_nfc_quick (s : list N) : is_normalized := quick_check_plain 0 Yes s.

(** std's Lines::next, after read_line: a line feed at the end is dropped, and then a
    carriage return *)
Definition strip_eol (l : list N) : list N :=
  if ends_with LF l then
    let l := removelast l in
    if ends_with CR l then removelast l else l
  else l.

(** nfc-cat.rs:14-19, ssnfc-cat.rs:14-25: one line, with the line feed pushed *)
Definition nfc_line (l : list N) : list N := match is_nfc_quick l with Yes => l | _ => nfc l end.
(** ssnfc-cat.rs:14-25 *)
Definition ssnfc_line (l : list N) : list N :=
  match is_nfc_stream_safe_quick l with Yes => l | _ => nfc (stream_safe l) end.

(** nfc-cat.rs:12-20, ssnfc-cat.rs:12-26: the loop.  [s] is the text that Utf8Reader
    gives; std's read_line takes the characters up to a line feed or the end.
    Simplification: reading and writing do not fail.  The fuel is the length of
    the text. *)
Fixpoint cat_go (fuel : nat) (conv : list N -> list N) (s : list N) : list N :=
  match fuel, s with
  | S f, _ :: _ => let '(l, rest) := until_lf s in conv (strip_eol l ++ [LF]) ++ cat_go f conv rest
  | _, _ => []
  end.
(** nfc-cat.rs:7-22 *)
Definition nfc_cat (s : list N) : list N := cat_go (length s) nfc_line s.
(** ssnfc-cat.rs:7-28 *)
Definition ssnfc_cat (s : list N) : list N := cat_go (length s) ssnfc_line s.

(** text-cat.rs:5-8: std::io::copy from a TextReader to standard output, which takes all
    bytes (Simplification: writing does not fail).  The first component is whether
    copy returned Ok; [None]: the fuel is used up.  Errors of the stream below are
    not of kind Interrupted. *)
Fixpoint text_cat (fuel : nat) (i : input) (sc : list event) (blen : nat) (out : list N) : option (bool * list N) :=
  match fuel with
  | O => None
  | S f =>
      let '(r, cs, i', sc') := read i sc blen in
      match std_result false r with
      | SOk O => Some (true, out)
      | SOk _ => text_cat f i' sc' blen (out ++ encode_all cs)
      | SInterrupted => text_cat f i' sc' blen out
      | SErr => Some (false, out)
      end
  end.
