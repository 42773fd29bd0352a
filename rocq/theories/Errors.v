(** The errors reported for characters that are not allowed. *)
From Coq Require Import NArith List Bool String.
From Verif Require Import Base Ucd Chars DocErrors.
Import ListNotations.
Local Open Scope N_scope.
Local Open Scope string_scope.

(** /repo/internals/src/check.rs:115-150: the format string of each error, with
    "_" for the characters it prints (which Rust prints as character literals).
    [Replacement] prints the characters that [replace] gives (152-164). *)
Definition display (e : basic_text_error) : message :=
  match e with
  | EControlCode c => Message "Control code not valid in text: _" [[c]]
  | EDeprecatedFormatChar c => Message "Deprecated Format Characters are deprecated: _" [[c]]
  | EEscape => Message "Escape code not valid in text" []
  | EBidiFormatChar => Message "Explicit Bidirectional Formatting Characters are unsupported" []
  | EInterlinear => Message "Interlinear Annotations depend on out-of-band information" []
  | ELanguageTag => Message "Language tagging is a deprecated mechanism" []
  | ELineSeparation => Message "Line separation is a rich-text function" []
  | ENonChar => Message "Noncharacters are intended for internal use only" []
  | EParaSeparation => Message "Paragraph separation is a rich-text function" []
  | EUnneededBOM => Message "_ is not necessary in Basic Text" [[0xFEFF]]
  | EOutOfBand => Message "_ depends on out-of-band information" [[0xFFFC]]
  | EOmit c => Message "Omit _" [[c]]
  | EBeyyal => Message "Spell beyyal with normal letters" []
  | EUnrecognizedEscape => Message "Unrecognized escape sequence" []
  | EReplacement no => Message "Use _ instead of _" [replace no; [no]]
  end.

(** What Categorize stores in the cell shared with the writer
    (/repo/internals/src/categorize.rs:25-44) after it has been asked for the
    characters [s]: the error of the last character that has one. *)
Definition recorded (s : list N) : option basic_text_error :=
  fold_left (fun e c => match check_basic_text_char c with Some x => Some x | None => e end) s None.
