(** Specification of a duplexer at the level of text: the reader and the writer
    (SpecWrite.v) side by side; reading a line puts the written text at the start
    of a line. *)
From Coq Require Import NArith List Bool.
From Verif Require Import Base Ucd Norm Chars DocTable TextUtils SpecText SpecEscape Utf8 Input Output SpecWrite Duplex.
Import ListNotations.
Local Open Scope N_scope.

(** A read delivered text that ends with a line end. *)
Definition line_read (r : dresult) : bool :=
  match r with
  | DGot (ROk _ _) cs => match last_opt cs with Some c => c =? 0xA | None => false end
  | _ => false
  end.

(** One operation on the written side, given what it returned. *)
Definition spec_side (cr : bool) (d : doc) (o : dop) (r : dresult) : doc :=
  match o with
  | DRead _ => if line_read r then mkdoc [] (sent d) (fresh d) (failed d) (outcomes d) else d
  | DOut o => snd (spec_op cr d o)
  end.
Fixpoint spec_sides (cr : bool) (d : doc) (os : list dop) (rs : list dresult) : doc :=
  match os, rs with
  | o :: os, r :: rs => spec_sides cr (spec_side cr d o r) os rs
  | _, _ => d
  end.
(** Whether each result is that of the specification. *)
Definition spec_result (cr : bool) (d : doc) (o : dop) (r : dresult) : Prop :=
  match o, r with
  | DRead _, DGot _ _ => True
  | DOut o, DWrote e => ok e = fst (spec_op cr d o)
  | _, _ => False
  end.
Fixpoint spec_results (cr : bool) (d : doc) (os : list dop) (rs : list dresult) : Prop :=
  match os, rs with
  | o :: os, r :: rs => spec_result cr d o r /\ spec_results cr (spec_side cr d o r) os rs
  | [], [] => True
  | _, _ => False
  end.

(** The text of an operation; all that was written; what was written since a
    line was read. *)
Definition dop_text (o : dop) : list N := match o with DOut o => op_text o | DRead _ => [] end.
Definition written (os : list dop) : list N := concat (map dop_text os).
Fixpoint written_since (acc : list N) (os : list dop) (rs : list dresult) : list N :=
  match os, rs with
  | o :: os, r :: rs => written_since (if line_read r then [] else acc ++ dop_text o) os rs
  | _, _ => acc
  end.

(** The reads of a history: the sizes of their buffers, and their results. *)
Definition read_sizes (os : list dop) : list nat := flat_map (fun o => match o with DRead b => [b] | _ => [] end) os.
Definition read_results (rs : list dresult) : list (read_result * list N) := flat_map (fun r => match r with DGot x cs => [(x, cs)] | _ => [] end) rs.

(** Histories of reads and plain operations, without abandon. *)
Definition plain_dop (o : dop) : Prop := match o with DRead _ => True | DOut o => plain_op o /\ o <> OpAbandon end.
