(** Model of a conversation with std::io::BufReader over a TextDuplexer: lines are read
    through the BufReader, and get_mut() is used for writing. *)
From Coq Require Import NArith List Bool.
From Verif Require Import Base Ucd Norm Chars TextUtils Utf8 Input Output Copy StdIo Lines LineIo StdBuf Duplex.
Import ListNotations.
Local Open Scope N_scope.

(** std bufreader.rs, as in StdBuf.v: the duplexer, the capacity of the buffer and the bytes
    in it that have not been taken yet *)
Record dbuf := mkdbuf { dover : duplexer; dcap : nat; dunread : list N }.
(** BufReader::with_capacity *)
Definition new_dbuf (d : duplexer) (cap : nat) : dbuf := mkdbuf d cap [].
(** bufreader.rs: fill_buf, over text_duplexer.rs:332-336 read, which calls
    read_with_status (text_duplexer.rs:229-239) through text_input.rs:520-526 *)
Definition dbuf_fill (b : dbuf) : buf_result * dbuf :=
  match dunread b with
  | [] => let '(r, cs, d) := duplex_read (dover b) (dcap b) in
          match std_result false r with
          | SOk _ => (BOk (encode_all cs), mkdbuf d (dcap b) (encode_all cs))
          | SInterrupted => (BInterrupted, mkdbuf d (dcap b) [])
          | SErr => (BErr, mkdbuf d (dcap b) [])
          end
  | bs => (BOk bs, b)
  end.
(** bufreader.rs: consume *)
Definition dbuf_consume (n : nat) (b : dbuf) : dbuf := mkdbuf (dover b) (dcap b) (skipn n (dunread b)).
(** BufRead::read_until(b'\n') as in StdBuf.v: the line, and whether it succeeded.
    [None]: the fuel is used up. *)
Fixpoint dbuf_until (fuel : nat) (b : dbuf) : option (list N * bool * dbuf) :=
  match fuel with
  | O => None
  | S f =>
      match dbuf_fill b with
      | (BInterrupted, b') => dbuf_until f b'
      | (BErr, b') => Some ([], false, b')
      | (BOk [], b') => Some ([], true, b')
      | (BOk bs, b') =>
          let '(l, _) := until_lf bs in
          let b'' := dbuf_consume (length l) b' in
          if ends_with LF l then Some (l, true, b'')
          else match dbuf_until f b'' with Some (more, ok, e) => Some (l ++ more, ok, e) | None => None end
      end
  end.
(** Reading a line, and an operation on the writing side of the duplexer. *)
Inductive bop := BLine | BOut (o : wop).
(** Their results. *)
Inductive bresult := BGot (line : list N) (ok : bool) | BWrote (r : dresult).
(** A conversation.  [None]: the fuel of a read_until is used up. *)
Fixpoint btalk (fuel : nat) (b : dbuf) (os : list bop) : option (list bresult * dbuf) :=
  match os with
  | [] => Some ([], b)
  | BLine :: t =>
      match dbuf_until fuel b with
      | Some (l, ok, b1) => match btalk fuel b1 t with Some (rs, b2) => Some (BGot l ok :: rs, b2) | None => None end
      | None => None
      end
  | BOut o :: t =>
      let '(r, d) := do_dop (dover b) (DOut o) in
      match btalk fuel (mkdbuf d (dcap b) (dunread b)) t with Some (rs, b2) => Some (BWrote r :: rs, b2) | None => None end
  end.
