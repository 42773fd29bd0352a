(** Model of /repo/src/buf_read_text.rs over a source of bytes that does not
    fail (Simplification: no I/O errors). *)
From Coq Require Import NArith List Bool.
From Verif Require Import Base Ucd Norm Chars TextUtils Utf8 Input Strings.
Import ListNotations.
Local Open Scope N_scope.

(** std's BufRead::read_until(b'\n'): the bytes up to and including the first
    0xA, and the rest. *)
Fixpoint until_lf (bs : list N) : list N * list N :=
  match bs with
  | [] => ([], [])
  | b :: t => if b =? LF then ([b], t) else let '(l, r) := until_lf t in (b :: l, r)
  end.

(** A result: the number of bytes read, or an error. *)
Inductive line_result := LOk (n : nat) | LErr.

(** std's BufRead::read_line: the line is appended to the buffer if it is UTF-8;
    otherwise the bytes are gone and the buffer is unchanged. *)
Definition read_line (buf src : list N) : line_result * list N * list N :=
  let '(line, rest) := until_lf src in
  match decode line with
  | (s, []) => (LOk (length line), buf ++ s, rest)
  | _ => (LErr, buf, rest)
  end.

(** buf_read_text.rs:21-33 read_text_line *)
Definition read_text_line (buf src : list N) : line_result * list N * list N :=
  match read_line buf src with
  | (LOk n, buf', rest) => if is_basic_text buf' then (LOk n, buf', rest) else (LErr, [], rest)
  | r => r
  end.

(** buf_read_text.rs:45-53 read_text_line_lossy.  What from_text_lossy makes of
    the buffer depends on how its reader gets the bytes (SpecString.v), so it is
    an argument here; [None] is a panic. *)
Definition read_text_line_lossy (conv : list N -> option (list N)) (buf src : list N) : option (line_result * list N * list N) :=
  match read_line buf src with
  | (LOk n, buf', rest) => match conv buf' with
                           | Some t => Some (LOk n, t, rest)
                           | None => None
                           end
  | r => Some r
  end.

(** What an iterator yields: a line or an error. *)
Inductive item := Line (s : list N) | LineErr.

(** str::ends_with for a character, used in buf_read_text.rs:95, 97, 135, 137 *)
Definition ends_with (c : N) (s : list N) : bool := match last_opt s with Some x => x =? c | None => false end.

(** buf_read_text.rs:90-112 TextLines::next.  The outer [None] is a panic of a
    debug_assert!, which is only there in debug builds ([debug]); the inner
    [None] ends the iteration. *)
Definition next_line (debug : bool) (src : list N) : option (option item * list N) :=
  match read_text_line [] src with
  | (LOk O, _, rest) => Some (None, rest)
  | (LOk _, buf, rest) =>
      if debug && negb (ends_with LF buf) then None
      else let l := removelast buf in
           if debug && ends_with CR l then None
           else if opt_all is_basic_text_end (last_opt l) then Some (Some (Line l), rest)
           else Some (Some LineErr, rest)
  | (LErr, _, rest) => Some (Some LineErr, rest)
  end.

(** buf_read_text.rs:130-151 TextLinesLossy::next *)
Definition next_line_lossy (debug : bool) (conv : list N -> option (list N)) (src : list N) : option (option item * list N) :=
  match read_text_line_lossy conv [] src with
  | None => None
  | Some (LOk O, _, rest) => Some (None, rest)
  | Some (LOk _, buf, rest) =>
      if debug && negb (ends_with LF buf) then None
      else let l := removelast buf in
           if debug && ends_with CR l then None
           else Some (Some (Line (if opt_all is_basic_text_end (last_opt l) then l else l ++ [CGJ])), rest)
  | Some (LErr, _, rest) => Some (Some LineErr, rest)
  end.

(** All the items of an iterator; [None] is a panic.  Every item but the end
    takes at least one byte, so the length of the source is enough fuel. *)
Fixpoint all_items (next : list N -> option (option item * list N)) (fuel : nat) (src : list N) : option (list item) :=
  match fuel with
  | O => Some []
  | S f => match next src with
           | None => None
           | Some (None, _) => Some []
           | Some (Some x, rest) => match all_items next f rest with Some l => Some (x :: l) | None => None end
           end
  end.

(** buf_read_text.rs:57-62, 67-72 text_lines, text_lines_lossy *)
Definition text_lines (debug : bool) (src : list N) : option (list item) := all_items (next_line debug) (length src) src.
(** buf_read_text.rs:67-72 text_lines_lossy *)
Definition text_lines_lossy (debug : bool) (conv : list N -> option (list N)) (src : list N) : option (list item) :=
  all_items (next_line_lossy debug conv) (length src) src.
