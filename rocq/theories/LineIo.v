(** Model of /repo/src/buf_read_text.rs over a source that arrives in pieces and
    may fail. *)
From Coq Require Import NArith List Bool.
From Verif Require Import Base Ucd Norm Chars TextUtils Utf8 Input Strings Lines.
Import ListNotations.
Local Open Scope N_scope.

(** What a call of BufRead::fill_buf gives next: some bytes ([Bytes []] is an
    end of file, after which more may come), or an I/O error.  Errors of kind
    Interrupted, which std retries, are left out. *)
Inductive piece := Bytes (bs : list N) | Failure.

(** The source after some bytes of a piece were used. *)
Definition keep (left : list N) (src : list piece) : list piece := match left with [] => src | _ => Bytes left :: src end.

(** std's BufRead::read_until(b'\n'): the bytes appended, whether it succeeded,
    and the rest of the source. *)
Fixpoint read_until (src : list piece) : list N * bool * list piece :=
  match src with
  | [] => ([], true, [])
  | Failure :: rest => ([], false, rest)
  | Bytes [] :: rest => ([], true, rest)
  | Bytes bs :: rest => let '(l, r) := until_lf bs in
                        if ends_with LF l then (l, true, keep r rest)
                        else let '(more, ok, rest') := read_until rest in (l ++ more, ok, rest')
  end.

(** std's BufRead::read_line: the bytes read, even before an error, are appended
    to the buffer if they are UTF-8. *)
Definition read_line_io (buf : list N) (src : list piece) : line_result * list N * list piece :=
  let '(line, ok, rest) := read_until src in
  match decode line with
  | (s, []) => (if ok then LOk (length line) else LErr, buf ++ s, rest)
  | _ => (LErr, buf, rest)
  end.

(** buf_read_text.rs:21-33 read_text_line: the ? returns an error as it is. *)
Definition read_text_line_io (buf : list N) (src : list piece) : line_result * list N * list piece :=
  match read_line_io buf src with
  | (LOk n, buf', rest) => if is_basic_text buf' then (LOk n, buf', rest) else (LErr, [], rest)
  | r => r
  end.

(** buf_read_text.rs:45-53 read_text_line_lossy; [conv] is from_text_lossy and
    [None] a panic, as in Lines.v. *)
Definition read_text_line_lossy_io (conv : list N -> option (list N)) (buf : list N) (src : list piece) : option (line_result * list N * list piece) :=
  match read_line_io buf src with
  | (LOk n, buf', rest) => match conv buf' with
                           | Some t => Some (LOk n, t, rest)
                           | None => None
                           end
  | r => Some r
  end.

(** buf_read_text.rs:90-112 TextLines::next; see Lines.v *)
Definition next_line_io (debug : bool) (src : list piece) : option (option item * list piece) :=
  match read_text_line_io [] src with
  | (LOk O, _, rest) => Some (None, rest)
  | (LOk _, buf, rest) =>
      if debug && negb (ends_with LF buf) then None
      else let l := removelast buf in
           if debug && ends_with CR l then None
           else if opt_all is_basic_text_end (last_opt l) then Some (Some (Line l), rest)
           else Some (Some LineErr, rest)
  | (LErr, _, rest) => Some (Some LineErr, rest)
  end.

(** buf_read_text.rs:130-151 TextLinesLossy::next *)
Definition next_line_lossy_io (debug : bool) (conv : list N -> option (list N)) (src : list piece) : option (option item * list piece) :=
  match read_text_line_lossy_io conv [] src with
  | None => None
  | Some (LOk O, _, rest) => Some (None, rest)
  | Some (LOk _, buf, rest) =>
      if debug && negb (ends_with LF buf) then None
      else let l := removelast buf in
           if debug && ends_with CR l then None
           else Some (Some (Line (if opt_all is_basic_text_end (last_opt l) then l else l ++ [CGJ])), rest)
  | Some (LErr, _, rest) => Some (Some LineErr, rest)
  end.
