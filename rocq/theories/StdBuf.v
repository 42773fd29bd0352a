(** Model of std::io::BufReader over a TextReader, and of std::io::BufWriter and
    std::io::LineWriter over a TextWriter.  (The standard library is in the trusted
    base; what is used of /repo are text_reader.rs:183-186 read and
    text_writer.rs:202-210 write and flush.) *)
From Coq Require Import NArith List Bool.
From Verif Require Import Base Ucd Norm Chars TextUtils Utf8 Input Output Copy StdIo Strings Lines LineIo.
Import ListNotations.
Local Open Scope N_scope.

(** * BufReader *)
(** std bufreader.rs: the reader, its stream, the capacity of the buffer and the
    bytes in it that have not been taken yet *)
Record bufreader := mkbuf { under : input; stream : list event; capacity : nat; unread : list N }.
(** BufReader::with_capacity, over text_reader.rs:45-91 *)
Definition new_bufreader (nel lsps : bool) (script : list event) (cap : nat) : bufreader := mkbuf (new_input nel lsps) script cap [].
(** Bytes, an error of kind Interrupted, or another error. *)
Inductive buf_result := BOk (bs : list N) | BInterrupted | BErr.

(** A read of the TextReader into [blen] bytes (text_reader.rs:183-186, text_input.rs:520-526). *)
Definition direct (b : bufreader) (blen : nat) : buf_result * bufreader :=
  let '(r, cs, i, sc) := read (under b) (stream b) blen in
  (match std_result false r with SOk _ => BOk (encode_all cs) | SInterrupted => BInterrupted | SErr => BErr end,
   mkbuf i sc (capacity b) (unread b)).
(** bufreader.rs: fill_buf *)
Definition fill_buf (b : bufreader) : buf_result * bufreader :=
  match unread b with
  | [] => match direct b (capacity b) with
          | (BOk bs, b') => (BOk bs, mkbuf (under b') (stream b') (capacity b') bs)
          | r => r
          end
  | bs => (BOk bs, b)
  end.
(** bufreader.rs: consume *)
Definition consume (n : nat) (b : bufreader) : bufreader := mkbuf (under b) (stream b) (capacity b) (skipn n (unread b)).
(** bufreader.rs: read; a large buffer is read into directly when nothing is buffered *)
Definition buf_read (b : bufreader) (blen : nat) : buf_result * bufreader :=
  if (match unread b with [] => true | _ => false end) && Nat.leb (capacity b) blen then direct b blen
  else match fill_buf b with
       | (BOk bs, b') => (BOk (firstn blen bs), consume blen b')
       | r => r
       end.
(** A session. *)
Fixpoint buf_reads (b : bufreader) (sizes : list nat) : list buf_result * bufreader :=
  match sizes with
  | [] => ([], b)
  | n :: t => let '(r, b') := buf_read b n in let '(rs, b'') := buf_reads b' t in (r :: rs, b'')
  end.

(** BufRead::read_until(b'\n'), over fill_buf and consume: the line, whether it succeeded,
    and the state after.  [None]: the fuel is used up. *)
Fixpoint buf_until (fuel : nat) (b : bufreader) : option (list N * bool * bufreader) :=
  match fuel with
  | O => None
  | S f =>
      match fill_buf b with
      | (BInterrupted, b') => buf_until f b'
      | (BErr, b') => Some ([], false, b')
      | (BOk [], b') => Some ([], true, b')
      | (BOk bs, b') =>
          let '(l, _) := until_lf bs in
          let b'' := consume (length l) b' in
          if ends_with LF l then Some (l, true, b'')
          else match buf_until f b'' with Some (more, ok, e) => Some (l ++ more, ok, e) | None => None end
      end
  end.
(** /repo/src/buf_read_text.rs:90-112 TextLines::next over a BufReader: what it gives
    depends on the result of read_until only (LineIo.v).  The outer [None]: the fuel is
    used up; the inner one: a panic. *)
Definition buf_next_line (fuel : nat) (debug : bool) (b : bufreader) : option (option (option item) * bufreader) :=
  match buf_until fuel b with
  | None => None
  | Some (line, ok, b') =>
      Some (match next_line_io debug (keep line (if ok then [] else [Failure])) with Some (it, _) => Some it | None => None end, b')
  end.
(** buf_read_text.rs:57-62 text_lines: all the items.  [None]: a panic, or the fuel is
    used up. *)
Fixpoint buf_text_lines (n fuel : nat) (debug : bool) (b : bufreader) : option (list item) :=
  match n with
  | O => None
  | S n' => match buf_next_line fuel debug b with
            | Some (Some None, _) => Some []
            | Some (Some (Some x), b') => match buf_text_lines n' fuel debug b' with Some l => Some (x :: l) | None => None end
            | _ => None
            end
  end.

(** * BufWriter and LineWriter *)
(** std bufwriter.rs: the writer, the capacity, and the bytes not passed on yet *)
Record bufwriter := mkbw { passed_to : writer; room : nat; kept : list N }.
(** bufwriter.rs: flush_buf; what could not be written stays in the buffer.  [None]: a
    WriteZero error or no fuel left, as for write_all in StdIo.v. *)
Fixpoint flush_go (fuel : nat) (w : writer) (bs : list N) : option (wresult * writer * list N) :=
  match bs, fuel with
  | [], _ => Some (None, w, [])
  | _, O => None
  | _, S f => match write_bytes w bs with
              | (Some O, _, _) => None
              | (Some n, _, w') => flush_go f w' (skipn n bs)
              | (None, r, w') => Some (r, w', bs)
              end
  end.
(** bufwriter.rs: flush_buf *)
Definition flush_buf (b : bufwriter) : option (wresult * bufwriter) :=
  match flush_go (length (kept b)) (passed_to b) (kept b) with
  | Some (r, w, bs) => Some (r, mkbw w (room b) bs)
  | None => None
  end.
(** bufwriter.rs: write_all, write_all_cold.  (Simplification: the capacity is exactly the one
    asked for.) *)
Definition bw_write_all (b : bufwriter) (bs : list N) : option (wresult * bufwriter) :=
  let spare := (room b - length (kept b))%nat in
  if Nat.ltb (length bs) spare then Some (None, mkbw (passed_to b) (room b) (kept b ++ bs))
  else match (if Nat.ltb spare (length bs) then flush_buf b else Some (None, b)) with
       | Some (None, b1) =>
           if Nat.leb (room b1) (length bs) then
             match write_all (passed_to b1) bs with Some (r, w) => Some (r, mkbw w (room b1) (kept b1)) | None => None end
           else Some (None, mkbw (passed_to b1) (room b1) (kept b1 ++ bs))
       | x => x
       end.
(** The part up to the last line end, and the rest. *)
Fixpoint split_last_lf (bs : list N) : option (list N * list N) :=
  match bs with
  | [] => None
  | c :: t => match split_last_lf t with
              | Some (l, r) => Some (c :: l, r)
              | None => if c =? LF then Some ([c], t) else None
              end
  end.
(** std linewritershim.rs: write_all *)
Definition lw_write_all (b : bufwriter) (bs : list N) : option (wresult * bufwriter) :=
  match split_last_lf bs with
  | None =>
      match (if ends_with LF (kept b) then flush_buf b else Some (None, b)) with
      | Some (None, b1) => bw_write_all b1 bs
      | x => x
      end
  | Some (lines, tail) =>
      match (match kept b with
             | [] => match write_all (passed_to b) lines with Some (r, w) => Some (r, mkbw w (room b) []) | None => None end
             | _ => match bw_write_all b lines with Some (None, b1) => flush_buf b1 | x => x end
             end) with
      | Some (None, b1) => bw_write_all b1 tail
      | x => x
      end
  end.
(** Several calls of write_all. *)
Fixpoint each_write (f : bufwriter -> list N -> option (wresult * bufwriter)) (b : bufwriter) (ps : list (list N)) : option (list wresult * bufwriter) :=
  match ps with
  | [] => Some ([], b)
  | p :: t => match f b p with
              | None => None
              | Some (r, b') => match each_write f b' t with Some (rs, b'') => Some (r :: rs, b'') | None => None end
              end
  end.
(** BufWriter::into_inner, then TextWriter::close_into_inner *)
Definition bw_finish (b : bufwriter) : option (wresult * writer) :=
  match flush_buf b with
  | Some (None, b1) => Some (close (passed_to b1))
  | Some (e, b1) => Some (e, passed_to b1)
  | None => None
  end.
