(** Specification of writing text with colour sequences that the application cuts
    anywhere into several writes.  Nothing here refers to the writer's state
    machine: what is kept between two writes is the part of a sequence the
    application has already written. *)
From Coq Require Import NArith List Bool.
From Verif Require Import Base Ucd Norm Chars TextUtils SpecText SpecEscape Utf8 Output SpecWrite SpecColour.
Import ListNotations.
Local Open Scope N_scope.

(** The beginning of a colour sequence that is not all of it; maybe nothing. *)
Definition unfinished (h : list N) : Prop := exists ps r, Forall parameter ps /\ r <> [] /\ h ++ r = sgr ps.

(** A write is the end [f] of a sequence begun before, text with complete
    sequences, and the beginning [h] of another sequence; or only a middle part of
    a sequence. *)
Inductive fop := FWrite (f : list N) (p : painted) (h : list N) | FPart (f : list N) | FText (s : list N) | FFlush | FClose | FAbandon.
Definition fop_op (x : fop) : wop :=
  match x with
  | FWrite f p h => OpWriteStr (f ++ source p ++ h)
  | FPart f => OpWriteStr f
  | FText s => OpWriteText s
  | FFlush => OpFlush
  | FClose => OpClose
  | FAbandon => OpAbandon
  end.
(** The part of a sequence that has been written when [o] had been before. *)
Definition left_open (o : list N) (x : fop) : list N :=
  match x with FWrite _ _ h => h | FPart f => o ++ f | FText _ => [] | _ => o end.
Definition fop_ok (o : list N) (x : fop) : Prop :=
  match x with
  | FWrite f p h => painted_ok p /\ unfinished h /\
      (f = [] /\ o = [] \/ f <> [] /\ o <> [] /\ exists ps, Forall parameter ps /\ o ++ f = sgr ps)
  | FPart f => o <> [] /\ unfinished (o ++ f)
  | FText s => s <> [] /\ is_basic_text_substr s = true
  | _ => True
  end.
Fixpoint fops_ok (o : list N) (xs : list fop) : Prop :=
  match xs with [] => True | x :: t => fop_ok o x /\ fops_ok (left_open o x) t end.

(** No text of the write merges with the sequence before it. *)
Definition fits (f : list N) (p : painted) : bool := apart p && match f with [] => true | _ => negb (merges (lead p)) end.

(** The sequence a write completes goes before its text; a part of a sequence adds
    nothing yet. *)
Definition fop_shown (o : list N) (x : fop) : list N :=
  match x with
  | FWrite f p h => (match f with [] => [] | _ => o ++ f end) ++ shown p
  | FText s => s
  | _ => []
  end.
Definition spec_fop (cr : bool) (o : list N) (d : doc) (x : fop) : bool * doc :=
  match x with
  | FWrite f p h => if failed d then (false, d)
                    else if negb (forallb allowedb (concat (pieces p)) && fits f p) then (false, fail d)
                    else spec_send cr d (fop_shown o x)
  | FPart f => if failed d then (false, d) else spec_send cr d []
  | FText s => spec_write_text cr d s
  (* in the middle of a sequence a flush is refused and closing fails *)
  | FFlush => match o with [] => spec_flush d | _ => (false, d) end
  | FClose => match o with [] => spec_close d | _ => (false, fail d) end
  | FAbandon => (true, fail d)
  end.
Fixpoint spec_fops (cr : bool) (o : list N) (d : doc) (xs : list fop) : list bool * (list N * doc) :=
  match xs with
  | [] => ([], (o, d))
  | x :: t => let '(r, d') := spec_fop cr o d x in let '(rs, e) := spec_fops cr (left_open o x) d' t in (r :: rs, e)
  end.

(** The texts, and what is shown, of a whole history. *)
Definition fop_pieces (x : fop) : list (list N) :=
  match x with FWrite f p h => map pipeline (pieces p) | FText s => [s] | _ => [] end.
Fixpoint fops_shown (o : list N) (xs : list fop) : list N :=
  match xs with [] => [] | x :: t => fop_shown o x ++ fops_shown (left_open o x) t end.
