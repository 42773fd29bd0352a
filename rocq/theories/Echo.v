(** Model of a program that sends each text it reads from a TextDuplexer back through it. *)
From Coq Require Import NArith List Bool.
From Verif Require Import Base Input Output Duplex DuplexCopy.
Import ListNotations.
Local Open Scope N_scope.

(** The text that was read is written, if there is any (text_duplexer.rs:364-367
    write_text_substr), and then flushed if [fl] (text_duplexer.rs:378-381 flush). *)
Definition echo_write (fl : bool) (d : duplexer) (r : read_result) (cs : list N) : wresult * duplexer :=
  match r with
  | ROk (S _) _ => match duplex_write_text d cs with
                   | (None, d') => if fl then duplex_flush d' else (None, d')
                   | e => e
                   end
  | _ => (None, d)
  end.
(** Reads (text_duplexer.rs:318-323 read_text_substr_with_status) with buffers of the given
    sizes, each followed by a write; the program stops when a write or flush fails.  The
    results of the reads, and that of the last write. *)
Fixpoint echo (fl : bool) (d : duplexer) (sizes : list nat) : list (read_result * list N) * wresult * duplexer :=
  match sizes with
  | [] => ([], None, d)
  | b :: t =>
      let '(r, cs, d1) := duplex_read d b in
      match echo_write fl d1 r cs with
      | (None, d2) => let '(rs, e, d3) := echo fl d2 t in ((r, cs) :: rs, e, d3)
      | (Some e, d2) => ([(r, cs)], Some e, d2)
      end
  end.
