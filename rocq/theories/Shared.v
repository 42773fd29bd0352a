(** Several TextWriters over one stream, as over copies of a handle of a file (the inner
    stream of a TextWriter is any stream, text_writer.rs:39-53): a call on one of them goes on
    where the stream is.  Abandoning concerns the writer's handle only. *)
From Coq Require Import NArith List Bool PeanoNat.
From Verif Require Import Base Output.
Import ListNotations.

(** The writers by number, what the stream has accepted, and what it will answer. *)
Record shared := mkshared { member : nat -> writer; accepted : list N; answers : list wout }.
(** One call on one of the writers. *)
Definition shared_op (s : shared) (k : nat) (o : wop) : wresult * shared :=
  let w := member s k in
  let '(r, w') := do_op (set_inner w (mksink (accepted s) (answers s) (abandoned (inner w)))) o in
  (r, mkshared (fun j => if Nat.eqb j k then w' else member s j) (emitted (inner w')) (script (inner w'))).
(** A history. *)
Fixpoint shared_ops (s : shared) (h : list (nat * wop)) : list wresult * shared :=
  match h with
  | [] => ([], s)
  | (k, o) :: t => let '(r, s') := shared_op s k o in let '(rs, s'') := shared_ops s' t in (r :: rs, s'')
  end.
(** New writers, each with its own way to end lines (TextWriter::new and
    TextWriter::with_crlf_compatibility, text_writer.rs:47-85). *)
Definition new_shared (crs : nat -> bool) (p : list N) (a : list wout) : shared := mkshared (fun k => new_writer (crs k) false (mksink p a false)) p a.
(** New writers with colours (TextWriter::with_ansi_color_output, text_writer.rs:138-144; CRLF
    is not offered together with colours, but makes no difference here). *)
Definition new_coloured (cr : bool) (p : list N) (a : list wout) : shared := mkshared (fun k => new_writer cr true (mksink p a false)) p a.
