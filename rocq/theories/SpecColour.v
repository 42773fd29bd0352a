(** Specification of writing text with colours: what the application writes is
    text with complete colour sequences in it.  Nothing here refers to the
    writer's state machine. *)
From Coq Require Import NArith List Bool.
From Verif Require Import Base Ucd Norm Chars TextUtils SpecText SpecEscape Utf8 Output SpecWrite.
Import ListNotations.
Local Open Scope N_scope.

(** ESC [ parameters m *)
Definition sgr (ps : list N) : list N := 0x1B :: 0x5B :: ps ++ [0x6D].

(** A text, then sequences each with the text that follows it. *)
Definition join (t : list N) (l : list (list N * list N)) : list N := t ++ flat_map (fun x => sgr (fst x) ++ snd x) l.
Record painted := mkpainted { lead : list N; rest : list (list N * list N) }.
(** What is handed to the writer, and its texts without the sequences. *)
Definition source (p : painted) : list N := join (lead p) (rest p).
Definition pieces (p : painted) : list (list N) := lead p :: map snd (rest p).
(** Each text converted by itself, the sequences unchanged. *)
Definition shown (p : painted) : list N := join (pipeline (lead p)) (map (fun x => (fst x, pipeline (snd x))) (rest p)).

(** The conversion of [t] after an "m" changes the "m": an accent at the beginning
    of [t] is put on it. *)
Definition merges (t : list N) : bool := negb (list_eqb (pipeline (0x6D :: t)) (0x6D :: pipeline t)).
(** No text merges with the sequence before it. *)
Definition apart (p : painted) : bool := negb (existsb (fun x => merges (snd x)) (rest p)).

(** The texts contain no ESC. *)
Definition painted_ok (p : painted) : Prop :=
  Forall (fun t => ~ In 0x1B t) (pieces p) /\ Forall (fun x => Forall parameter (fst x)) (rest p).

(** Histories with colours. *)
Inductive cop := CWrite (p : painted) | CText (s : list N) | CFlush | CClose | CAbandon.
Definition cop_op (o : cop) : wop :=
  match o with
  | CWrite p => OpWriteStr (source p)
  | CText s => OpWriteText s
  | CFlush => OpFlush
  | CClose => OpClose
  | CAbandon => OpAbandon
  end.
Definition cop_ok (o : cop) : Prop :=
  match o with CWrite p => painted_ok p | CText s => s <> [] /\ is_basic_text_substr s = true | _ => True end.

(** The writer at the level of text (SpecWrite.v), with the sequences as part of
    the text.  A text that merges with the sequence before it is refused. *)
Definition spec_cop (cr : bool) (d : doc) (o : cop) : bool * doc :=
  match o with
  | CWrite p => if failed d then (false, d)
                else if negb (forallb allowedb (concat (pieces p)) && apart p) then (false, fail d)
                else spec_send cr d (shown p)
  | _ => spec_op cr d (cop_op o)
  end.
Fixpoint spec_cops (cr : bool) (d : doc) (os : list cop) : list bool * doc :=
  match os with
  | [] => ([], d)
  | o :: t => let '(r, d') := spec_cop cr d o in let '(rs, d'') := spec_cops cr d' t in (r :: rs, d'')
  end.

(** The texts an operation adds, and the same with its sequences. *)
Definition cop_pieces (o : cop) : list (list N) :=
  match o with CWrite p => map pipeline (pieces p) | CText s => [s] | _ => [] end.
Definition cop_shown (o : cop) : list N := match o with CWrite p => shown p | CText s => s | _ => [] end.

(** [t] is [s] without its colour sequences. *)
Inductive uncoloured : list N -> list N -> Prop :=
| unc_nil : uncoloured [] []
| unc_char : forall c s t, c <> 0x1B -> uncoloured s t -> uncoloured (c :: s) (c :: t)
| unc_sgr : forall ps s t, Forall parameter ps -> uncoloured s t -> uncoloured (sgr ps ++ s) t.

(** An operation that writes no ESC. *)
Definition no_esc_op (o : wop) : Prop :=
  match o with OpWriteStr s => ~ In 0x1B s | OpWrite bs => ~ In 0x1B (fst (decode bs)) | _ => True end.
