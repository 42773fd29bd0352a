(** A duplexer whose writing side takes colour sequences, which the application
    may cut anywhere into several writes (SpecFrag.v).  A line that is read puts
    the written text at the start of a line, and forgets the part of a sequence
    that has been written. *)
From Coq Require Import NArith List Bool.
From Verif Require Import Base Ucd Norm Chars TextUtils SpecText SpecEscape Utf8 Input Output SpecWrite SpecColour SpecFrag Duplex SpecDuplex.
Import ListNotations.
Local Open Scope N_scope.

Inductive dfop := DFRead (blen : nat) | DFOut (x : fop).
Definition dfop_op (x : dfop) : dop := match x with DFRead b => DRead b | DFOut x => DOut (fop_op x) end.

(** What is left of a sequence after an operation that returned [r]. *)
Definition dleft_open (o : list N) (x : dfop) (r : dresult) : list N :=
  match x with DFRead _ => if line_read r then [] else o | DFOut x => left_open o x end.
Fixpoint dfops_ok (o : list N) (xs : list dfop) (rs : list dresult) : Prop :=
  match xs, rs with
  | x :: xs, r :: rs => match x with DFRead _ => True | DFOut x => fop_ok o x /\ x <> FAbandon end /\ dfops_ok (dleft_open o x r) xs rs
  | [], [] => True
  | _, _ => False
  end.

(** One operation on the written side, given what it returned. *)
Definition spec_dfop (cr : bool) (o : list N) (d : doc) (x : dfop) (r : dresult) : doc :=
  match x with
  | DFRead _ => if line_read r then mkdoc [] (sent d) (fresh d) (failed d) (outcomes d) else d
  | DFOut x => snd (spec_fop cr o d x)
  end.
Fixpoint spec_dfops (cr : bool) (o : list N) (d : doc) (xs : list dfop) (rs : list dresult) : list N * doc :=
  match xs, rs with
  | x :: xs, r :: rs => spec_dfops cr (dleft_open o x r) (spec_dfop cr o d x r) xs rs
  | _, _ => (o, d)
  end.
(** Whether each result is that of the specification. *)
Fixpoint spec_dresults (cr : bool) (o : list N) (d : doc) (xs : list dfop) (rs : list dresult) : Prop :=
  match xs, rs with
  | x :: xs, r :: rs => match x, r with
                        | DFRead _, DGot _ _ => True
                        | DFOut x, DWrote e => ok e = fst (spec_fop cr o d x)
                        | _, _ => False
                        end /\ spec_dresults cr (dleft_open o x r) (spec_dfop cr o d x r) xs rs
  | [], [] => True
  | _, _ => False
  end.

(** What is shown of a history: all of it, and since a line was read. *)
Fixpoint dshown (o : list N) (xs : list dfop) (rs : list dresult) : list N :=
  match xs, rs with
  | x :: xs, r :: rs => match x with DFRead _ => [] | DFOut x => fop_shown o x end ++ dshown (dleft_open o x r) xs rs
  | _, _ => []
  end.
Fixpoint dshown_since (acc o : list N) (xs : list dfop) (rs : list dresult) : list N :=
  match xs, rs with
  | x :: xs, r :: rs =>
      dshown_since (if line_read r then [] else acc ++ match x with DFRead _ => [] | DFOut x => fop_shown o x end) (dleft_open o x r) xs rs
  | _, _ => acc
  end.
