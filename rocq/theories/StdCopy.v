(** Model of std::io::copy from a BufReader over a TextReader to a LineWriter over a
    TextWriter.  (The standard library is in the trusted base; what is used of /repo are
    text_reader.rs:183-186 read and text_writer.rs:202-210 write and flush.) *)
From Coq Require Import NArith List Bool.
From Verif Require Import Base Utf8 Input Output Copy StdIo StdBuf.
Import ListNotations.
Local Open Scope N_scope.

(** std io/copy.rs: stack_buffer_copy, with a buffer of [n] bytes.  (Simplification:
    the specializations of copy for BufReader and BufWriter, which move the same bytes in
    pieces of other sizes, are not modelled.)  [None]: the fuel is used up, or as
    for write_all. *)
Fixpoint buf_copy (fuel n : nat) (b : bufreader) (o : bufwriter) (count : nat) : option (copy_result * bufreader * bufwriter) :=
  match fuel with
  | O => None
  | S f =>
      match buf_read b n with
      | (BOk [], b') => Some (CopyOk count, b', o)
      | (BOk bs, b') =>
          match lw_write_all o bs with
          | Some (None, o') => buf_copy f n b' o' (count + length bs)
          | Some (Some e, o') => Some (CopyWrite e, b', o')
          | None => None
          end
      | (BInterrupted, b') => buf_copy f n b' o count
      | (BErr, b') => Some (CopyRead, b', o)
      end
  end.
