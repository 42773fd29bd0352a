(** Vocabulary for several writers with colours over one stream. *)
From Coq Require Import NArith List Bool PeanoNat.
From Verif Require Import Base SpecText Output SpecWrite SpecCrash SpecColour SpecDamage SpecShared.
Import ListNotations.
Local Open Scope N_scope.

(** The calls, as operations of the numbered writers. *)
Definition calls (h : list (nat * cop)) : list (nat * wop) := map (fun x => (fst x, cop_op (snd x))) h.
(** The calls that succeeded, in their order. *)
Fixpoint done (h : list (nat * cop)) (rs : list wresult) : list cop :=
  match h, rs with
  | (_, o) :: h', None :: rs' => o :: done h' rs'
  | _ :: h', Some _ :: rs' => done h' rs'
  | _, _ => []
  end.
(** Text shown by some calls, with the colours and without. *)
Definition shown_by (l : list cop) : list N := concat (map cop_shown l).
Definition text_by (l : list cop) : list N := concat (map (fun o => concat (cop_pieces o)) l).
(** A call that writes nothing, or complete lines which without their colours are valid. *)
Definition line_cop (o : cop) : Prop := coloured_lines (cop_shown o) (concat (cop_pieces o)).
(** What each call sent: all that it shows if it succeeded, and else a beginning of it. *)
Inductive cwent (cr : bool) : list (nat * cop) -> list wresult -> list (list N) -> Prop :=
| cwent_nil : cwent cr [] [] []
| cwent_ok : forall k o h rs ps, cwent cr h rs ps -> cwent cr ((k, o) :: h) (None :: rs) (as_sent cr (cop_shown o) :: ps)
| cwent_failed : forall k o e h rs p ps, beginning p (as_sent cr (cop_shown o)) -> cwent cr h rs ps -> cwent cr ((k, o) :: h) (Some e :: rs) (p :: ps).
(** The text begins with a line end or with a colour sequence. *)
Definition fresh_start (t : list N) : Prop := match t with [] => True | c :: _ => c = 0xA \/ c = 0x1B end.
(** What a reader gives, [o], beside the calls and their results, as in SpecShared.v. *)
Fixpoint creads_lines (good : bool) (h : list (nat * cop)) (rs : list wresult) (o : list N) : Prop :=
  match h, rs with
  | (_, x) :: h', r :: rs' =>
      match cop_shown x, r with
      | [], _ => creads_lines good h' rs' o
      | _, Some _ => creads_lines false h' rs' o
      | _, None => let t := concat (cop_pieces x) in
          if good then exists o', o = t ++ o' /\ creads_lines true h' rs' o'
          else exists d o', line_terminated d /\ d <> [] /\ o = d ++ after_first t ++ o' /\ creads_lines true h' rs' o'
      end
  | _, _ => line_terminated o /\ (good = true -> o = [])
  end.
