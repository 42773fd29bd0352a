(** Model of /repo/src/text_duplexer.rs: a reader and a writer over the same
    stream.  What the stream below delivers is a script that is independent of
    what is written to it; theorems quantify over all scripts. *)
From Coq Require Import NArith List Bool.
From Verif Require Import Base Ucd Norm Chars TextUtils Utf8 Input Output Copy.
Import ListNotations.
Local Open Scope N_scope.

(** text_duplexer.rs:29-36 TextDuplexer *)
Record duplexer := mkduplexer { din : input; dout : writer; dscript : list event }.

(** text_duplexer.rs:41-81 new and its variants, 86-94, 119-151 from_utf8, …_with_crlf_compatibility,
    …_with_nel_compatibility, …_with_lsps_compatibility; 172-181
    with_ansi_color_output *)
Definition new_duplexer (nel lsps cr an : bool) (k : sink) (sc : list event) : duplexer :=
  mkduplexer (new_input nel lsps) (new_writer cr an k) sc.

(** text_duplexer.rs:229-239 read_with_status *)
Definition duplex_read (d : duplexer) (blen : nat) : read_result * list N * duplexer :=
  let '(r, cs, i, sc) := read (din d) (dscript d) blen in
  let w := match r with
           | ROk n _ => newline (dout d) (negb (Nat.eqb n 0) && match last_opt cs with Some c => c =? LF | None => false end)
           | _ => dout d
           end in
  (r, cs, mkduplexer i w sc).

(** std's read_exact over the duplexer's read (text_duplexer.rs:270-281
    read_exact_str, 302-314 read_exact_text_substr), without the last step.
    [None] when the fuel is used up. *)
Fixpoint duplex_fill (intr : bool) (fuel : nat) (d : duplexer) (room : nat) : option (exact_result * list N * duplexer) :=
  match room with
  | O => Some (ExactOk, [], d)
  | _ =>
    match fuel with
    | O => None
    | S f =>
        let '(r, cs, d') := duplex_read d room in
        match std_result intr r with
        | SOk O => Some (ExactEof, [], d')
        | SOk n => match duplex_fill intr f d' (room - n) with
                   | Some (e, t, d'') => Some (e, cs ++ t, d'')
                   | None => None
                   end
        | SInterrupted => duplex_fill intr f d' room
        | SErr => Some (ExactErr, [], d')
        end
    end
  end.

(** text_duplexer.rs:270-281, 302-314: then the write side is told about a line
    end.  buf.len() - 1 panics for an empty buffer in debug builds; in release
    builds there is no such byte.  The outer option is the fuel, the inner one
    the panic. *)
Definition duplex_exact (intr debug : bool) (fuel : nat) (d : duplexer) (blen : nat)
  : option (option (exact_result * list N * duplexer)) :=
  match duplex_fill intr fuel d blen with
  | None => None
  | Some (ExactOk, t, d') =>
      if debug && Nat.eqb blen 0 then Some None
      else Some (Some (ExactOk, t, mkduplexer (din d') (newline (dout d') (match last_opt t with Some c => c =? LF | None => false end)) (dscript d')))
  | Some r => Some (Some r)
  end.

(** text_duplexer.rs:256-260 abandon; [None] is the panic of the reader's
    assertion. *)
Definition duplex_abandon (d : duplexer) : option duplexer :=
  match abandon_input (din d) with
  | Some i => Some (mkduplexer i (abandon (dout d)) (dscript d))
  | None => None
  end.

(** The operations of a history: reads, and the writer's operations
    (text_duplexer.rs:349-399), which do not touch the reading side except for
    abandon. *)
Inductive dop := DRead (blen : nat) | DOut (o : wop).
(** Their results. *)
Inductive dresult := DGot (r : read_result) (cs : list N) | DWrote (r : wresult) | DPanic.

(** One operation. *)
Definition do_dop (d : duplexer) (o : dop) : dresult * duplexer :=
  match o with
  | DRead blen => let '(r, cs, d') := duplex_read d blen in (DGot r cs, d')
  | DOut OpAbandon => match duplex_abandon d with
                      | Some d' => (DWrote None, d')
                      | None => (DPanic, d)
                      end
  | DOut o => let '(r, w) := do_op (dout d) o in (DWrote r, mkduplexer (din d) w (dscript d))
  end.

(** A history. *)
Fixpoint do_dops (d : duplexer) (os : list dop) : list dresult * duplexer :=
  match os with
  | [] => ([], d)
  | o :: t => let '(r, d') := do_dop d o in
              let '(rs, d'') := do_dops d' t in (r :: rs, d'')
  end.
