(** Model of reading all the text: read_to_end and read_to_string of a TextReader, and
    ReadText::read_to_text_string. *)
From Coq Require Import NArith List Bool.
From Verif Require Import Base Chars Utf8 Input Strings Copy StdIo StdBuf StdAdapt Sizes.
Import ListNotations.
Local Open Scope N_scope.

(** What a call returns: Ok(count) and the caller's Vec, or an error.  (What layered_io
    leaves in the Vec on an error is not modelled.) *)
Inductive whole := Whole (count : nat) (bytes : list N) | Broken.

(** layered_io default_read_to_end (called in text_reader.rs:189-191 and
    text_duplexer.rs:339-341; layered_io is in the trusted base,
    and its source is not in /repo, so that the loop is an assumption about it).  [len] more bytes are
    made available at the end of the Vec; after a read, the ones it did not use; when
    those are less than the minimum, as many more as suggested.  Pushes are passed over.
    [None]: the fuel is used up. *)
Fixpoint to_end_go (fuel minimum suggested len start : nat) (t : text_reader) (buf : list N) : option (whole * text_reader) :=
  match fuel with
  | O => None
  | S f =>
      let '(r, cs, i, sc) := read (state_of t) (stream_of t) len in
      match r with
      | ROk n s =>
          let buf' := buf ++ encode_all cs in
          match s with
          | End => Some (Whole (length buf' - start) buf', mkreader i sc)
          | _ => let left := (len - n)%nat in
                 to_end_go f minimum suggested (if Nat.ltb left minimum then left + suggested else left)%nat start (mkreader i sc) buf'
          end
      | _ => Some (Broken, mkreader i sc)
      end
  end.
(** text_reader.rs:188-191 read_to_end; the sizes are text_reader.rs:114-128
    minimum_buffer_size and suggested_buffer_size, [inner_min] and [inner_sug] those of
    the stream below *)
Definition read_to_end (fuel inner_min inner_sug : nat) (t : text_reader) (buf : list N) : option (whole * text_reader) :=
  to_end_go fuel (minimum_buffer_size inner_min) (reader_suggested inner_min inner_sug) (reader_suggested inner_min inner_sug) (length buf) t buf.
(** text_reader.rs:193-196, text_input.rs:528-535 read_to_string: the same, into the
    bytes of the String *)
Definition read_to_string (fuel inner_min inner_sug : nat) (t : text_reader) (s : list N) : option (whole * text_reader) :=
  read_to_end fuel inner_min inner_sug t (encode_all s).
(** read_text.rs:22-24, text_string.rs:1496-1512 default_read_to_text_string: the first
    character from [start] on is looked at *)
Inductive text_whole := TWhole (count : nat) (bytes : list N) | TNotStarter (bytes : list N) | TBroken.
Definition read_to_text (fuel inner_min inner_sug : nat) (t : text_reader) (s : list N) : option (text_whole * text_reader) :=
  match read_to_string fuel inner_min inner_sug t s with
  | None => None
  | Some (Broken, t') => Some (TBroken, t')
  | Some (Whole n bs, t') =>
      let text := fst (decode (skipn (str_len s) bs)) in
      Some (if fst (read_to_text_string s text) then TWhole n bs else TNotStarter bs, t')
  end.
