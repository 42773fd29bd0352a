(** Model of /repo/src/text_output.rs (TextOutput, the implementation of
    TextWriter and of the writing half of TextDuplexer). *)
From Coq Require Import NArith List Bool.
From Verif Require Import Base Ucd Norm Chars TextUtils Utf8.
Import ListNotations.
Local Open Scope N_scope.

(** The wrapped stream.  [emitted] is everything it has accepted.  The outcome
    of its calls is given by a script: success, or failure after accepting some
    of the characters; after the script every call succeeds.  After [abandon]
    every call fails (layered_io).  Simplification: the stream is a [WriteStr],
    so what it accepts is counted in characters. *)
Inductive wout := WOk | WErr (n : nat).
(** The stream: what it has accepted, what its next calls do, whether it is abandoned. *)
Record sink := mksink { emitted : list N; script : list wout; abandoned : bool }.

(** write_str of the wrapped stream (called in text_output.rs:262-292) *)
Definition sink_write (k : sink) (s : list N) : bool * sink :=
  if abandoned k then (false, k)
  else match script k with
       | [] => (true, mksink (emitted k ++ s) [] false)
       | WOk :: t => (true, mksink (emitted k ++ s) t false)
       | WErr n :: t => (false, mksink (emitted k ++ firstn n s) t false)
       end.

(** flush and close of the wrapped stream accept no further characters *)
Definition sink_call (k : sink) : bool * sink := sink_write k [].

(** abandon of the wrapped stream (called in text_output.rs:436-442, 557-562) *)
Definition sink_abandon (k : sink) : sink := mksink (emitted k) (script k) true.

(** /repo/src/text_output.rs:575-593 Ground, State *)
Inductive ground := Newline | ZwjOrPrepend | Other.
(** text_output.rs:584-593 State *)
Inductive wstate := WGround (g : ground) | WEsc | WCsi.

(** text_output.rs:80-99 TextOutput together with the stream it wraps
    (TextWriter, /repo/src/text_writer.rs:39-45) *)
Record writer := mkwriter {
  buffer : list N;
  crlf : bool;
  expect : bool;
  ansi : bool;
  wst : wstate;
  escseq : list N;
  inner : sink
}.

(** The errors of the operations (text_output.rs:265-285, 337-397, 399-426, 472-513) *)
Inductive werror :=
| EWCheck                  (* a BasicTextError found by check_basic_text_char *)
| EWEscape                 (* BasicTextError::Escape *)
| EWUnrecognizedEscape     (* BasicTextError::UnrecognizedEscape *)
| EWStarter                (* write data must begin with a starter *)
| EWInner                  (* error of the wrapped stream *)
| EWNoNewline | EWZwj | EWIncompleteEscape | EWFlushEscape
| EWUtf8.

(** Ok(()) is [None] *)
Definition wresult := option werror.

(** text_output.rs:104-158 new, with_crlf_compatibility, with_ansi_color *)
Definition new_writer (cr an : bool) (k : sink) : writer :=
  mkwriter [] cr true an (WGround Newline) [] k.

(** text_output.rs:132-148 with_bom_compatibility; [None] if writing the BOM fails *)
Definition new_bom_writer (k : sink) : option writer :=
  match sink_write k [BOM] with
  | (true, k') => Some (new_writer false false k')
  | (false, _) => None
  end.

(** Assignment to state *)
Definition set_wst (w : writer) (s : wstate) : writer :=
  mkwriter (buffer w) (crlf w) (expect w) (ansi w) s (escseq w) (inner w).
(** Assignment to buffer *)
Definition set_buf (w : writer) (b : list N) : writer :=
  mkwriter b (crlf w) (expect w) (ansi w) (wst w) (escseq w) (inner w).
(** Assignment to expect_starter *)
Definition set_exp (w : writer) (e : bool) : writer :=
  mkwriter (buffer w) (crlf w) e (ansi w) (wst w) (escseq w) (inner w).
(** The wrapped stream after a call *)
Definition set_inner (w : writer) (k : sink) : writer :=
  mkwriter (buffer w) (crlf w) (expect w) (ansi w) (wst w) (escseq w) k.

(** text_output.rs:550-555 reset_state *)
Definition reset_state (w : writer) : writer := set_wst w (WGround Newline).

(** text_output.rs:557-562 prepare_failure *)
Definition prepare_failure (w : writer) : writer :=
  set_inner (reset_state w) (sink_abandon (inner w)).

(** text_output.rs:381-386: the state after a character *)
Definition ground_of (c : N) : ground := if is_basic_text_end c then Other else ZwjOrPrepend.

(** text_output.rs:337-397 state_machine_char; match arms in order. *)
Definition sm_char (w : writer) (c : N) : wresult * writer :=
  match wst w with
  | WGround _ =>
      if (c =? ESC) && ansi w then
        (None, mkwriter (buffer w) (crlf w) (expect w) (ansi w) WEsc [ESC] (inner w))
      else if c =? LF then
        (None, set_buf (set_wst w (WGround Newline)) (buffer w ++ [LF]))
      else if c =? SUB then (Some EWCheck, prepare_failure w)
      else if c =? ESC then (Some EWEscape, prepare_failure w)
      else (None, set_buf (set_wst w (WGround (ground_of c))) (buffer w ++ [c]))
  | WEsc =>
      if c =? 0x5B then
        (None, mkwriter (buffer w) (crlf w) (expect w) (ansi w) WCsi (escseq w ++ [0x5B]) (inner w))
      else (Some EWUnrecognizedEscape, prepare_failure w)
  | WCsi =>
      if in_range c 0x20 0x3F then
        (None, mkwriter (buffer w) (crlf w) (expect w) (ansi w) WCsi (escseq w ++ [c]) (inner w))
      else if c =? 0x6D then
        (None, mkwriter (buffer w ++ escseq w ++ [0x6D]) (crlf w) (expect w) (ansi w)
                        (WGround Other) (escseq w ++ [0x6D]) (inner w))
      else (Some EWUnrecognizedEscape, prepare_failure w)
  end.

(** The loops over the characters (text_output.rs:305-307, 323-332) *)
Fixpoint sm_chars (w : writer) (cs : list N) : wresult * writer :=
  match cs with
  | [] => (None, w)
  | c :: t => match sm_char w c with
              | (None, w') => sm_chars w' t
              | r => r
              end
  end.

(** text_output.rs:294-335 state_machine and state_machine_slow_path *)
Definition converted (s : list N) : list N :=
  if (match is_nfc_stream_safe_quick s with Yes => true | _ => false end)
     && forallb is_public_assigned s
  then categorize s
  else pipeline (categorize s).

(** text_output.rs:294-335: the text goes through the state machine *)
Definition state_machine (w : writer) (s : list N) : wresult * writer := sm_chars w (converted s).

(** text_output.rs:262-292 write_buffer.  When the write fails the buffer has
    been taken. *)
Definition write_buffer (w : writer) : wresult * writer :=
  if expect w && negb (opt_all is_basic_text_start (head_opt (buffer w)))
  then (Some EWStarter, prepare_failure (set_exp w false))
  else
    let w1 := set_exp w false in
    let '(ok, k) := sink_write (inner w1) (buffer w1) in
    let w2 := set_inner (set_buf w1 []) k in
    if ok then (None, w2) else (Some EWInner, prepare_failure w2).

(** str::split('\n') *)
Fixpoint split_lf (s : list N) : list (list N) :=
  match s with
  | [] => [[]]
  | c :: t =>
      if c =? LF then [] :: split_lf t
      else match split_lf t with
           | seg :: segs => (c :: seg) :: segs
           | [] => [[c]]
           end
  end.

(** text_output.rs:200-202, 245-246: state and buffer at a line end in CRLF mode *)
Definition push_crlf (w : writer) : writer :=
  set_buf (set_wst w (WGround Newline)) (buffer w ++ [CR; LF]).

(** text_output.rs:196-207: the loop over the slices after the first *)
Fixpoint crlf_rest (w : writer) (segs : list (list N)) : wresult * writer :=
  match segs with
  | [] => (None, w)
  | seg :: t => match state_machine (push_crlf w) seg with
                | (None, w') => crlf_rest w' t
                | r => r
                end
  end.

(** text_output.rs:196-207: the whole loop *)
Definition crlf_segs (w : writer) (segs : list (list N)) : wresult * writer :=
  match segs with
  | [] => (None, w)
  | seg :: t => match state_machine w seg with
                | (None, w') => crlf_rest w' t
                | r => r
                end
  end.

(** The operator ? *)
Definition and_then (r : wresult * writer) (f : writer -> wresult * writer) : wresult * writer :=
  match r with
  | (None, w) => f w
  | e => e
  end.

(** text_output.rs:179-211 normal_write_str, crlf_write_str; 461-470 write_str *)
Definition write_str (w : writer) (s : list N) : wresult * writer :=
  and_then (if crlf w then crlf_segs w (split_lf s) else state_machine w s) write_buffer.

(** text_output.rs:221-226, 250-255 *)
Definition text_ground (s : list N) : ground :=
  match last_opt s with
  | None => Newline
  | Some c => if c =? LF then Newline else ground_of c
  end.

(** text_output.rs:220-226, 249-255: a slice without conversion *)
Definition push_text_seg (w : writer) (s : list N) : writer :=
  set_wst (set_buf w (buffer w ++ s)) (WGround (text_ground s)).

(** text_output.rs:213-260 normal_write_text, crlf_write_text; 450-459 write_text_substr;
    write_text.rs:9-11 write_text passes the same characters on.  (The default of
    write_text_substr, write_text.rs:15-17 and 25-30, is write_str.) *)
Definition write_text (w : writer) (s : list N) : wresult * writer :=
  write_buffer
    (if crlf w then
       match split_lf s with
       | [] => w
       | seg :: segs => fold_left (fun w seg => push_text_seg (push_crlf w) seg) segs (push_text_seg w seg)
       end
     else push_text_seg w s).

(** text_output.rs:472-489 write; the count is in bytes *)
Definition write_bytes (w : writer) (bs : list N) : option nat * wresult * writer :=
  let '(cs, rest) := decode bs in
  match rest, cs with
  | [], _ => let '(r, w') := write_str w cs in
             (match r with None => Some (length bs) | _ => None end, r, w')
  | _, _ :: _ => let '(r, w') := write_str w cs in
             (match r with None => Some (length bs - length rest)%nat | _ => None end, r, w')
  | _, [] => (None, Some EWUtf8, prepare_failure w)
  end.

(** text_output.rs:399-426 check_nl *)
Definition check_nl (w : writer) : wresult * writer :=
  match wst w with
  | WGround Newline => (None, w)
  | WGround ZwjOrPrepend => (Some EWZwj, prepare_failure w)
  | WGround Other => (Some EWNoNewline, prepare_failure w)
  | WEsc | WCsi => (Some EWIncompleteEscape, prepare_failure w)
  end.

(** text_output.rs:428-434 close *)
Definition close (w : writer) : wresult * writer :=
  and_then (check_nl (set_exp w true))
    (fun w => let '(ok, k) := sink_call (inner w) in
              ((if ok then None else Some EWInner), set_inner w k)).

(** text_output.rs:436-442 abandon *)
Definition abandon (w : writer) : writer := reset_state (set_inner w (sink_abandon (inner w))).

(** text_output.rs:491-513 flush *)
Definition flush (w : writer) : wresult * writer :=
  match wst w with
  | WGround ZwjOrPrepend => (Some EWZwj, prepare_failure w)
  | WGround _ =>
      let '(ok, k) := sink_call (inner w) in
      ((if ok then None else Some EWInner), set_inner (set_exp w true) k)
  | WEsc | WCsi => (Some EWFlushEscape, w)
  end.

(** text_output.rs:541-548 newline (called by the duplexer after reads) *)
Definition newline (w : writer) (nl : bool) : writer := if nl then set_wst w (WGround Newline) else w.

(** text_output.rs:565-573 Drop: does dropping the writer panic? *)
Definition drop_panics (w : writer) : bool :=
  match wst w with WGround Newline => false | _ => true end.

(** text_output.rs:162-177 close_into_inner (the writer is dropped either way),
    abandon_into_inner *)
Definition close_into_inner (w : writer) : wresult * writer := check_nl w.
(** text_output.rs:171-177 abandon_into_inner *)
Definition abandon_into_inner (w : writer) : sink := inner (reset_state w).

(** The operations of a history. *)
Inductive wop :=
| OpWriteStr (s : list N)
| OpWriteText (s : list N)
| OpWrite (bs : list N)
| OpFlush
| OpClose
| OpAbandon.

(** One operation. *)
Definition do_op (w : writer) (o : wop) : wresult * writer :=
  match o with
  | OpWriteStr s => write_str w s
  | OpWriteText s => write_text w s
  | OpWrite bs => let '(_, r, w') := write_bytes w bs in (r, w')
  | OpFlush => flush w
  | OpClose => close w
  | OpAbandon => (None, abandon w)
  end.

(** A history. *)
Fixpoint do_ops (w : writer) (os : list wop) : list wresult * writer :=
  match os with
  | [] => ([], w)
  | o :: t => let '(r, w') := do_op w o in
              let '(rs, w'') := do_ops w' t in (r :: rs, w'')
  end.
