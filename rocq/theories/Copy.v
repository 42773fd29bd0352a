(** Model of /repo/src/copy.rs and of the exact reads (/repo/src/read_text.rs,
    text_input.rs:161-236). *)
From Coq Require Import NArith List Bool.
From Verif Require Import Base Ucd Norm Chars TextUtils Utf8 Input Output.
Import ListNotations.
Local Open Scope N_scope.

(** layered_io's default_read (text_input.rs:520-526 read): a status is turned
    into the result of std::io::Read::read; no data without the end of the
    stream is an Interrupted error. *)
Inductive std_read := SOk (n : nat) | SInterrupted | SErr.
(** [intr]: the errors of the stream below are of kind Interrupted. *)
Definition std_result (intr : bool) (r : read_result) : std_read :=
  match r with
  | ROk O End => SOk 0
  | ROk O _ => SInterrupted
  | ROk n _ => SOk n
  | RInvalid => SErr
  | RErr => if intr then SInterrupted else SErr
  end.

(** The result of copy_text (copy.rs:11) *)
Inductive copy_result :=
| CopyOk (written : nat)      (* Ok(written) *)
| CopyRead                    (* the error of a read *)
| CopyWrite (e : werror).     (* the error of a write or flush *)

(** copy.rs:19-28 copy_text, the loop.  [blen] is the length of the buffer
    (copy.rs:13-16).  The characters read are those of &buf[..len].  [None] when
    the fuel is used up (see copy_total in CopyProps.v). *)
Fixpoint copy_text (intr : bool) (fuel : nat) (i : input) (sc : list event) (w : writer) (blen written : nat)
  : option (copy_result * input * list event * writer) :=
  match fuel with
  | O => None
  | S f =>
      let '(r, cs, i', sc') := read i sc blen in
      match std_result intr r with
      | SOk O => Some (CopyOk written, i', sc', w)
      | SOk n => match write_text w cs with
                 | (None, w') => copy_text intr f i' sc' w' blen (written + n)
                 | (Some e, w') => Some (CopyWrite e, i', sc', w')
                 end
      | SInterrupted => copy_text intr f i' sc' w blen written
      | SErr => Some (CopyRead, i', sc', w)
      end
  end.

(** copy.rs:48-58 copy_text_using_status, the loop *)
Fixpoint copy_status (fuel : nat) (i : input) (sc : list event) (w : writer) (blen written : nat)
  : option (copy_result * input * list event * writer) :=
  match fuel with
  | O => None
  | S f =>
      let '(r, cs, i', sc') := read i sc blen in
      match r with
      | ROk n s =>
          match write_text w cs with
          | (Some e, w') => Some (CopyWrite e, i', sc', w')
          | (None, w') =>
              match s with
              | End => Some (CopyOk (written + n), i', sc', w')
              | Push => match flush w' with
                        | (Some e, w'') => Some (CopyWrite e, i', sc', w'')
                        | (None, w'') => copy_status f i' sc' w'' blen (written + n)
                        end
              | Active => copy_status f i' sc' w' blen (written + n)
              end
          end
      | _ => Some (CopyRead, i', sc', w)
      end
  end.

(** The result of an exact read (text_input.rs:165, 212) *)
Inductive exact_result := ExactOk | ExactEof | ExactErr.

(** std's Read::read_exact over the reader (text_input.rs:161-168, 208-216
    read_exact_str, read_exact_text_substr): the buffer shrinks with every read.
    Also the characters read into it. *)
Fixpoint read_exact (intr : bool) (fuel : nat) (i : input) (sc : list event) (room : nat)
  : option (exact_result * list N * input * list event) :=
  match room with
  | O => Some (ExactOk, [], i, sc)
  | _ =>
    match fuel with
    | O => None
    | S f =>
        let '(r, cs, i', sc') := read i sc room in
        match std_result intr r with
        | SOk O => Some (ExactEof, [], i', sc')
        | SOk n => match read_exact intr f i' sc' (room - n) with
                   | Some (e, t, i'', sc'') => Some (e, cs ++ t, i'', sc'')
                   | None => None
                   end
        | SInterrupted => read_exact intr f i' sc' room
        | SErr => Some (ExactErr, [], i', sc')
        end
    end
  end.

(** What an exact read into a TextSubstr can end with. *)
Inductive substr_exact := DefOk | DefEof | DefErr | DefPanic.

(** read_text.rs:53-73 default_read_exact_text_substr over a reader whose
    read_text_substr is the reader's; [buf] are the bytes of the caller's
    TextSubstr.  split_at_mut (text_substring.rs:675-682) panics unless both
    halves are valid.  [None] when the fuel is used up. *)
Fixpoint default_exact (fuel : nat) (i : input) (sc : list event) (buf : list N) : option (substr_exact * input * list event) :=
  match buf with
  | [] => Some (DefOk, i, sc)
  | _ =>
    match fuel with
    | O => None
    | S f =>
        let '(r, cs, i', sc') := read i sc (length buf) in
        match std_result false r with
        | SOk O => Some (DefEof, i', sc')
        | SOk n => let buf' := buffer_after r cs buf in
                   match decode (firstn n buf'), decode (skipn n buf') with
                   | (a, []), (b, []) => if is_basic_text_substr a && is_basic_text_substr b then default_exact f i' sc' (skipn n buf') else Some (DefPanic, i', sc')
                   | _, _ => Some (DefPanic, i', sc')
                   end
        | _ => Some (DefErr, i', sc')
        end
    end
  end.

(** What an exact read with a status can end with. *)
Inductive status_exact := StOk (s : status) | StEof | StErr | StPanic.

(** read_text.rs:75-104 default_read_exact_text_substr_using_status; Status::active()
    is [Active].  [None] when the fuel is used up. *)
Fixpoint default_exact_status (fuel : nat) (i : input) (sc : list event) (buf : list N) : option (status_exact * input * list event) :=
  match buf with
  | [] => Some (StOk Active, i, sc)
  | _ =>
    match fuel with
    | O => None
    | S f =>
        let '(r, cs, i', sc') := read i sc (length buf) in
        match r with
        | ROk n s =>
            let buf' := buffer_after r cs buf in
            match decode (firstn n buf'), decode (skipn n buf') with
            | (a, []), (b, []) =>
                if is_basic_text_substr a && is_basic_text_substr b
                then if is_end s then Some ((match skipn n buf' with [] => StOk s | _ => StEof end), i', sc')
                     else default_exact_status f i' sc' (skipn n buf')
                else Some (StPanic, i', sc')
            | _, _ => Some (StPanic, i', sc')
            end
        | _ => Some (StErr, i', sc')
        end
    end
  end.

(** layered_io's default_read_exact_using_status over the reader (text_input.rs:189-197
    read_exact_str_using_status, 228-236 read_exact_text_substr_using_status; the same
    for a duplexer, text_duplexer.rs:291-293, 327-329): reads until the buffer is full
    or a read reports the end; reads without text are repeated, errors end it. Also the
    characters read. [None] when the fuel is used up. *)
Fixpoint read_exact_status (fuel : nat) (i : input) (sc : list event) (room : nat) : option (status_exact * list N * input * list event) :=
  match room with
  | O => Some (StOk Active, [], i, sc)
  | _ =>
    match fuel with
    | O => None
    | S f =>
        let '(r, cs, i', sc') := read i sc room in
        match r with
        | ROk n s =>
            if is_end s then Some ((match (room - n)%nat with O => StOk s | _ => StEof end), cs, i', sc')
            else match read_exact_status f i' sc' (room - n) with
                 | Some (e, t, i'', sc'') => Some (e, cs ++ t, i'', sc'')
                 | None => None
                 end
        | _ => Some (StErr, [], i', sc')
        end
    end
  end.
