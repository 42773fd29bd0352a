(** Model of reading all the text through a TextDuplexer, and of vectored reads. *)
From Coq Require Import NArith List Bool.
From Verif Require Import Base Chars Utf8 Input Output Strings Copy Duplex StdIo StdBuf StdAdapt Sizes StdRead.
Import ListNotations.
Local Open Scope N_scope.

(** layered_io default_read_to_end (called in text_duplexer.rs:338-341), as to_end_go in
    StdRead.v, with the reads of the duplexer.  [None]: the fuel is used up. *)
Fixpoint duplex_to_end_go (fuel minimum suggested len start : nat) (d : duplexer) (buf : list N) : option (whole * duplexer) :=
  match fuel with
  | O => None
  | S f =>
      let '(r, cs, d') := duplex_read d len in
      match r with
      | ROk n s =>
          let buf' := buf ++ encode_all cs in
          match s with
          | End => Some (Whole (length buf' - start) buf', d')
          | _ => let left := (len - n)%nat in
                 duplex_to_end_go f minimum suggested (if Nat.ltb left minimum then left + suggested else left)%nat start d' buf'
          end
      | _ => Some (Broken, d')
      end
  end.
(** text_duplexer.rs:338-341 read_to_end; the sizes are text_duplexer.rs:241-254 *)
Definition duplex_to_end (fuel inner_min inner_sug : nat) (d : duplexer) (buf : list N) : option (whole * duplexer) :=
  duplex_to_end_go fuel (minimum_buffer_size inner_min) (duplexer_suggested inner_min inner_sug) (duplexer_suggested inner_min inner_sug) (length buf) d buf.
(** text_duplexer.rs:343-346, text_input.rs:528-535 read_to_string: the same, into the
    bytes of the String *)
Definition duplex_to_string (fuel inner_min inner_sug : nat) (d : duplexer) (s : list N) : option (whole * duplexer) :=
  duplex_to_end fuel inner_min inner_sug d (encode_all s).

(** Read::read_vectored of std, which TextReader does not redefine: the first buffer that
    is not empty is read into, by [read]; if there is none, an empty one. *)
Definition vectored_read (t : text_reader) (lens : list nat) : buf_result * text_reader :=
  std_read t (match filter (fun n => negb (Nat.eqb n 0)) lens with n :: _ => n | [] => 0%nat end).
