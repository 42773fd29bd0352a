(** The documented strict conversion of a stream, /repo/docs/BasicText.md:230-250
    "From Unicode stream to Basic Text stream, strict", with its options.  (Read
    literally, the byte order mark that BOM Compatibility inserts would then be
    refused by the Sequence Table; here it is put before the converted text.) *)
From Coq Require Import NArith List Bool.
From Verif Require Import Base Ucd Norm Chars TextUtils SpecText SpecConv SpecString Output SpecWrite.
Import ListNotations.
Local Open Scope N_scope.

Definition strict_stream (s : list N) : Prop := strict_accepts s /\ line_terminated s.
Definition strict_stream_result (bom crlf : bool) (s : list N) : list N :=
  (if bom then [0xFEFF] else []) ++ nfc (stream_safe (isolated_form false (as_sent crlf s))).

(** A stream below that already holds a byte order mark, or nothing. *)
Definition below (bom : bool) : sink := mksink (if bom then [0xFEFF] else []) [] false.

(** Pieces of a stream, cut after line ends. *)
Inductive line_pieces : list (list N) -> Prop :=
| lp_one : forall s, s <> [] -> line_pieces [s]
| lp_more : forall s ps, line_pieces ps -> line_pieces ((s ++ [0xA]) :: ps).
