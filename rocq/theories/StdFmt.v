(** Model of std's write! and writeln! on a TextWriter (/repo/src/lib.rs:51-54): the
    formatted text is written in pieces, the literal parts and the parts that the
    arguments' Display produces.  What an argument's Display writes is left open: any
    pieces may come. *)
From Coq Require Import NArith List Bool.
From Verif Require Import Base Chars TextUtils Utf8 Output StdIo StdBuf.
Import ListNotations.
Local Open Scope N_scope.

(** std::io::Write::write_fmt, the provided method (/repo/src/text_writer.rs:201-229 does
    not override it): each piece goes to write_all, and the first error ends the call.
    [None] as for write_all. *)
Fixpoint write_fmt (w : writer) (ps : list (list N)) : option (wresult * writer) :=
  match ps with
  | [] => Some (None, w)
  | p :: t => match write_all w (encode_all p) with
              | Some (None, w') => write_fmt w' t
              | r => r
              end
  end.
(** /repo/src/lib.rs:51: writeln! adds a line end to the last literal part *)
Definition writeln (w : writer) (ps : list (list N)) : option (wresult * writer) := write_fmt w (ps ++ [[LF]]).

(** The same over a BufWriter or a LineWriter ([f] is their write_all, StdBuf.v). *)
Fixpoint buf_fmt (f : bufwriter -> list N -> option (wresult * bufwriter)) (b : bufwriter) (ps : list (list N)) : option (wresult * bufwriter) :=
  match ps with
  | [] => Some (None, b)
  | p :: t => match f b (encode_all p) with
              | Some (None, b') => buf_fmt f b' t
              | r => r
              end
  end.
