(** Model of /repo/fuzz/fuzz_targets/text.rs, the fuzz target of the crate: the
    assertions its authors test with random bytes. *)
From Coq Require Import NArith List Bool.
From Verif Require Import Base Ucd Norm Chars TextUtils Utf8 Input Output Strings.
Import ListNotations.
Local Open Scope N_scope.

(** std's Write::write_all: writes until all is taken; Ok(0) and errors end it.
    Simplification: the writer never reports Interrupted.  [None] when the fuel is
    used up. *)
Fixpoint write_all (fuel : nat) (w : writer) (bs : list N) : option (wresult * writer) :=
  match bs with
  | [] => Some (None, w)
  | _ => match fuel with
         | O => None
         | S f => match write_bytes w bs with
                  | (Some O, _, w') => Some (Some EWInner, w')
                  | (Some n, _, w') => write_all f w' (skipn n bs)
                  | (None, r, w') => Some (r, w')
                  end
         end
  end.

(** text.rs:41-45: write everything to a writer on a Vec, and close it.  [None] is
    an error. *)
Definition write_and_close (bs : list N) : option (list N) :=
  match write_all (length bs) (new_writer false false vec_sink) bs with
  | Some (None, w) => match close_into_inner w with
                      | (None, w') => Some (emitted (inner w'))
                      | _ => None
                      end
  | _ => None
  end.

(** The assertions of the fuzz target. *)
Inductive assertion :=
| NoBom | NoOrc | TrailingNewline | NoControls | StreamSafeNfc | StartsWithStarter   (* text.rs:21-38 *)
| WriterAgrees | WrittenAccepted                                                     (* text.rs:48-54 *)
| ReaderTransformed | LineRejected                                                   (* text.rs:60-69 and 71-82 *)
| ClosedUnderConcatenation.                                                          (* text.rs:88-89 *)

(** The first of some assertions that does not hold *)
Fixpoint first_failure (l : list (assertion * bool)) : option assertion :=
  match l with
  | [] => None
  | (a, b) :: t => if b then first_failure t else Some a
  end.

(** TextStr::from_text(s).is_ok() (text.rs:53, 66, 90) *)
Definition accepts (s : list N) : bool := match str_from_text is_basic_text s with TOk _ => true | TErr _ => false end.
(** TextStr::from_text_bytes(bs).is_ok() (text.rs:79) *)
Definition accepts_bytes (bs : list N) : bool := match from_bytes (str_from_text is_basic_text) bs with TOk _ => true | TErr _ => false end.
(** ends_with('\n') (text.rs:26, 65, 78) *)
Definition ends_nl (s : list N) : bool := match last_opt s with Some c => c =? LF | None => false end.

(** text.rs:13-90, the body of the target: [bs] is the input and [s] what
    read_to_string read from the reader over it.  The result is the assertion that
    fails, if one does. *)
Definition fuzz (bs s : list N) : option assertion :=
  first_failure
    ([(NoBom, negb (existsb (fun c => c =? BOM) s));
      (NoOrc, negb (existsb (fun c => c =? ORC) s));
      (TrailingNewline, match s with [] => true | _ => ends_nl s end);
      (NoControls, negb (existsb (fun c => is_control c && negb (c =? LF) && negb (c =? TAB)) s));
      (StreamSafeNfc, is_nfc_stream_safe s);
      (StartsWithStarter, match s with [] => true | c :: _ => ccc c =? 0 end)]
     ++ match write_and_close bs with
        | Some written => [(WriterAgrees, list_eqb s written); (WrittenAccepted, accepts written)]
        | None =>
            match decode bs with
            | (utf8, []) => [(ReaderTransformed, negb (list_eqb s utf8)); (LineRejected, negb (ends_nl utf8 && accepts utf8))]
            | _ => [(ReaderTransformed, negb (list_eqb (encode_all s) bs)); (LineRejected, negb (ends_nl bs && accepts_bytes bs))]
            end
        end
     ++ [(ClosedUnderConcatenation, accepts (s ++ s))]).
