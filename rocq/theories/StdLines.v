(** Model of /repo/src/buf_read_text.rs:67-72, 130-151 over a BufReader: the lossy lines. *)
From Coq Require Import NArith List Bool.
From Verif Require Import Base Utf8 Input Lines LineIo StdBuf.
Import ListNotations.
Local Open Scope N_scope.

(** buf_read_text.rs:130-151 TextLinesLossy::next over a BufReader; see buf_next_line in
    StdBuf.v.  [conv] is from_text_lossy, as in Lines.v. *)
Definition buf_next_line_lossy (fuel : nat) (debug : bool) (conv : list N -> option (list N)) (b : bufreader) : option (option (option item) * bufreader) :=
  match buf_until fuel b with
  | None => None
  | Some (line, ok, b') =>
      Some (match next_line_lossy_io debug conv (keep line (if ok then [] else [Failure])) with Some (it, _) => Some it | None => None end, b')
  end.
(** buf_read_text.rs:67-72 text_lines_lossy: all the items.  [None]: a panic, or the fuel
    is used up. *)
Fixpoint buf_text_lines_lossy (n fuel : nat) (debug : bool) (conv : list N -> option (list N)) (b : bufreader) : option (list item) :=
  match n with
  | O => None
  | S n' => match buf_next_line_lossy fuel debug conv b with
            | Some (Some None, _) => Some []
            | Some (Some (Some x), b') => match buf_text_lines_lossy n' fuel debug conv b' with Some l => Some (x :: l) | None => None end
            | _ => None
            end
  end.
