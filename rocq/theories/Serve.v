(** Model of a line server over a TextDuplexer: lines are read through a BufReader, and each
    is answered with a text that is written with write_text. *)
From Coq Require Import NArith List Bool.
From Verif Require Import Base Utf8 Input Output Copy StdIo Lines LineIo StdBuf Duplex DuplexBuf.
Import ListNotations.
Local Open Scope N_scope.

(** How the server ends: the peer has finished, reading failed, or writing failed. *)
Inductive served := ServedAll | ReadFailed | WriteFailed.
(** A program of the kind
      while buf.read_until(b'\n', &mut line)? != 0 { buf.get_mut().write_text(&answer(&line))?; line.clear() }
    over text_duplexer.rs:331-335 (read), write_text.rs:9-11 and text_duplexer.rs:363-368
    (write_text), for at most [m] lines:
    the lines that were read, the end, and the state after.  [None]: the fuel is used up. *)
Fixpoint serve (fuel m : nat) (answer : list N -> list N) (b : dbuf) : option (list (list N) * served * dbuf) :=
  match m with
  | O => None
  | S m' =>
      match dbuf_until fuel b with
      | None => None
      | Some (_, false, b1) => Some ([], ReadFailed, b1)
      | Some ([], true, b1) => Some ([], ServedAll, b1)
      | Some (l, true, b1) =>
          let '(r, d) := do_dop (dover b1) (DOut (OpWriteText (answer l))) in
          let b2 := mkdbuf d (dcap b1) (dunread b1) in
          match r with
          | DWrote None => match serve fuel m' answer b2 with Some (ls, e, b3) => Some (l :: ls, e, b3) | None => None end
          | _ => Some ([l], WriteFailed, b2)
          end
      end
  end.
