(** Model of the std::io functions that are used on readers and writers: write_all,
    write_all_vectored and std::io::copy (/repo/examples/text-cat.rs). *)
From Coq Require Import NArith List Bool.
From Verif Require Import Base Ucd Norm Chars TextUtils Utf8 Input Output Copy.
Import ListNotations.
Local Open Scope N_scope.

(** std::io::Write::write_all, the provided method, over text_writer.rs:202-205 write
    (text_output.rs:472-489).  [None]: Ok(0) was returned (a WriteZero error) or the fuel
    is used up; neither happens (write_all_total in StdProps.v).  Errors of the stream
    below of kind Interrupted are not modelled. *)
Fixpoint write_all_go (fuel : nat) (w : writer) (bs : list N) : option (wresult * writer) :=
  match bs, fuel with
  | [], _ => Some (None, w)
  | _, O => None
  | _, S f => match write_bytes w bs with
              | (Some O, _, _) => None
              | (Some n, _, w') => write_all_go f w' (skipn n bs)
              | (None, r, w') => Some (r, w')
              end
  end.
(** std::io::Write::write_all on a writer *)
Definition write_all (w : writer) (bs : list N) : option (wresult * writer) := write_all_go (length bs) w bs.

(** text_output.rs:515-521 write_vectored, layered_io's default_write_vectored: the
    first buffer that is not empty is written *)
Definition write_vectored (w : writer) (bufs : list (list N)) : option nat * wresult * writer :=
  write_bytes w (match find (fun b => match b with [] => false | _ => true end) bufs with Some b => b | None => [] end).

(** std::io::IoSlice::advance_slices *)
Fixpoint advance (n : nat) (bufs : list (list N)) : list (list N) :=
  match bufs with
  | [] => []
  | b :: t => if Nat.leb (length b) n then advance (n - length b) t else skipn n b :: t
  end.

(** text_output.rs:532-538 write_all_vectored, layered_io's default_write_all_vectored.
    [None] as for write_all. *)
Fixpoint write_all_vectored_go (fuel : nat) (w : writer) (bufs : list (list N)) : option (wresult * writer) :=
  match bufs, fuel with
  | [], _ => Some (None, w)
  | _, O => None
  | _, S f => match write_vectored w bufs with
              | (Some O, _, _) => None
              | (Some n, _, w') => write_all_vectored_go f w' (advance n bufs)
              | (None, r, w') => Some (r, w')
              end
  end.
(** text_output.rs:532-538: the function; empty buffers at the front are skipped first *)
Definition write_all_vectored (w : writer) (bufs : list (list N)) : option (wresult * writer) :=
  write_all_vectored_go (length (concat bufs)) w (advance 0 bufs).

(** std::io::copy from a TextReader (text_input.rs:520-526 read) to a TextWriter: each
    read of up to [blen] bytes is written with write_all.  [None]: the fuel is used
    up (std_copy_copies in StdProps.v). *)
Fixpoint std_copy (fuel : nat) (i : input) (sc : list event) (w : writer) (blen written : nat)
  : option (copy_result * input * list event * writer) :=
  match fuel with
  | O => None
  | S f =>
      let '(r, cs, i', sc') := read i sc blen in
      match std_result false r with
      | SOk O => Some (CopyOk written, i', sc', w)
      | SOk n => match write_all w (encode_all cs) with
                 | Some (None, w') => std_copy f i' sc' w' blen (written + n)
                 | Some (Some e, w') => Some (CopyWrite e, i', sc', w')
                 | None => None
                 end
      | SInterrupted => std_copy f i' sc' w blen written
      | SErr => Some (CopyRead, i', sc', w)
      end
  end.
