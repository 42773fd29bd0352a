(** Specification of a strict text writer (without colours) at the level of
    text: what has been written so far, whether the next text must begin with a
    starter, and whether the writer has failed.  There is no staging buffer, no
    state machine and no splitting at line ends. *)
From Coq Require Import NArith List Bool.
From Verif Require Import Base Ucd Norm Chars DocTable TextUtils SpecText SpecEscape Utf8 Output.
Import ListNotations.
Local Open Scope N_scope.

(** Line ends written as CR LF. *)
Definition expand (s : list N) : list N := flat_map (fun c => if c =? 0xA then [0xD; 0xA] else [c]) s.
Definition as_sent (cr : bool) (s : list N) : list N := if cr then expand s else s.

(** A scalar value that occurs in no row of the Sequence Table (see [allowed]). *)
Definition allowedb (c : N) : bool := match doc_lookup c with None => true | Some _ => false end.

Record doc := mkdoc {
  text : list N;         (* the text written *)
  sent : list N;         (* what the stream below has accepted *)
  fresh : bool;          (* at the start, and after a flush or close *)
  failed : bool;         (* an error has happened; the stream below is abandoned *)
  outcomes : list wout   (* what the stream below will answer *)
}.

Definition fail (d : doc) : doc := mkdoc (text d) (sent d) (fresh d) true (outcomes d).

(** Passing converted text on.  At the start it must begin with a starter. *)
Definition spec_send (cr : bool) (d : doc) (t : list N) : bool * doc :=
  if fresh d && negb (opt_all is_basic_text_start (head_opt t)) then (false, fail d)
  else match outcomes d with
       | WErr n :: o => (false, mkdoc (text d) (sent d ++ firstn n (as_sent cr t)) false true o)
       | WOk :: o => (true, mkdoc (text d ++ t) (sent d ++ as_sent cr t) false false o)
       | [] => (true, mkdoc (text d ++ t) (sent d ++ as_sent cr t) false false [])
       end.

(** Strict writing of a string: true if it succeeds. *)
Definition spec_write (cr : bool) (d : doc) (s : list N) : bool * doc :=
  if failed d then (false, d)
  else if negb (forallb allowedb s) then (false, fail d)
  else spec_send cr d (pipeline s).

(** Writing a string that is already Basic Text (a TextSubstr) *)
Definition spec_write_text (cr : bool) (d : doc) (s : list N) : bool * doc :=
  if failed d then (false, d) else spec_send cr d s.

(** A call that passes no text on: flush or close of the stream below. *)
Definition spec_call (d : doc) : bool * doc :=
  match outcomes d with
  | WErr _ :: o => (false, mkdoc (text d) (sent d) true (failed d) o)
  | WOk :: o => (true, mkdoc (text d) (sent d) true (failed d) o)
  | [] => (true, mkdoc (text d) (sent d) true (failed d) [])
  end.

(** Flushing is refused after a non-ender. *)
Definition spec_flush (d : doc) : bool * doc :=
  if failed d then (false, d)
  else if opt_all is_basic_text_end (last_opt (text d)) then spec_call d else (false, fail d).

(** Closing requires the text to be empty or to end with U+A. *)
Definition spec_close (d : doc) : bool * doc :=
  if failed d then (false, d)
  else match last_opt (text d) with
       | None => spec_call d
       | Some c => if c =? 0xA then spec_call d else (false, fail d)
       end.

(** Writing bytes writes their longest valid part, and fails if that is empty
    and there are bytes. *)
Definition spec_op (cr : bool) (d : doc) (o : wop) : bool * doc :=
  match o with
  | OpWriteStr s => spec_write cr d s
  | OpWrite bs => match decode bs with
                  | ([], _ :: _) => (false, fail d)
                  | (cs, _) => spec_write cr d cs
                  end
  | OpFlush => spec_flush d
  | OpClose => spec_close d
  | OpAbandon => (true, fail d)
  | OpWriteText s => spec_write_text cr d s
  end.

Fixpoint spec_ops (cr : bool) (d : doc) (os : list wop) : list bool * doc :=
  match os with
  | [] => ([], d)
  | o :: t => let '(r, d') := spec_op cr d o in let '(rs, d'') := spec_ops cr d' t in (r :: rs, d'')
  end.

(** A new writer on a stream that has already accepted [p] (a byte order mark,
    or nothing). *)
Definition new_doc (p : list N) (o : list wout) : doc := mkdoc [] p true false o.
(** Text written through the TextSubstr interface is valid; writing an empty one
    is left out (see C28_empty_text_refuted). *)
Definition plain_op (o : wop) : Prop :=
  match o with OpWriteText s => s <> [] /\ is_basic_text_substr s = true | _ => True end.
Definition ok (r : wresult) : bool := match r with None => true | Some _ => false end.

(** The text an operation adds when it succeeds. *)
Definition op_text (o : wop) : list N :=
  match o with
  | OpWriteStr s => pipeline s
  | OpWriteText s => s
  | OpWrite bs => pipeline (fst (decode bs))
  | _ => []
  end.
Definition is_write (o : wop) : bool := match o with OpWriteStr _ | OpWriteText _ | OpWrite _ => true | _ => false end.

(** Every failing call of the stream below fails without accepting anything. *)
Definition whole (o : list wout) : Prop := Forall (fun x => match x with WErr n => n = 0%nat | WOk => True end) o.
(** A write of some text, and a write of whole lines. *)
Definition nonempty_op (o : wop) : Prop := is_write o = true -> op_text o <> [].
Definition line_op (o : wop) : Prop := is_write o = true -> exists u, op_text o = u ++ [0xA].

(** Text with colours: allowed characters and complete sequences
    ESC [ parameters m. *)
Inductive coloured : list N -> Prop :=
| col_nil : coloured []
| col_char : forall c t, allowed c -> coloured t -> coloured (c :: t)
| col_sgr : forall ps t, Forall parameter ps -> coloured t -> coloured (0x1B :: 0x5B :: ps ++ 0x6D :: t).
