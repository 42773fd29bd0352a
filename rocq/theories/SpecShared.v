(** Vocabulary for several writers over one stream. *)
From Coq Require Import NArith List Bool PeanoNat.
From Verif Require Import Base SpecText Output SpecWrite SpecCrash.
Import ListNotations.
Local Open Scope N_scope.

(** The calls of a history, their results, and what each of them sent: all of its text if it
    succeeded, and else a beginning of it. *)
Inductive went (crs : nat -> bool) : list (nat * wop) -> list wresult -> list (list N) -> Prop :=
| went_nil : went crs [] [] []
| went_ok : forall k o h rs ps, went crs h rs ps -> went crs ((k, o) :: h) (None :: rs) (as_sent (crs k) (op_text o) :: ps)
| went_failed : forall k o e h rs p ps, beginning p (as_sent (crs k) (op_text o)) -> went crs h rs ps -> went crs ((k, o) :: h) (Some e :: rs) (p :: ps).
(** The calls that succeeded, in their order. *)
Fixpoint succeeded (h : list (nat * wop)) (rs : list wresult) : list wop :=
  match h, rs with
  | (_, o) :: h', None :: rs' => o :: succeeded h' rs'
  | _ :: h', Some _ :: rs' => succeeded h' rs'
  | _, _ => []
  end.
(** What writer [k] wrote. *)
Definition written_by (k : nat) (h : list (nat * wop)) : list N := concat (map (fun x => if Nat.eqb (fst x) k then op_text (snd x) else []) h).
(** [t] without its first line. *)
Fixpoint after_first (t : list N) : list N := match t with [] => [] | c :: t' => if c =? 0xA then t' else after_first t' end.
(** What a reader gives, [o], beside the calls and their results: the text of each write that
    succeeded.  Behind a write that failed there are lines which may be damaged, up to the end
    of the first line of the next write that succeeded. *)
Fixpoint reads_lines (good : bool) (h : list (nat * wop)) (rs : list wresult) (o : list N) : Prop :=
  match h, rs with
  | (_, x) :: h', None :: rs' => if is_write x then
      if good then exists o', o = op_text x ++ o' /\ reads_lines true h' rs' o'
      else exists d o', line_terminated d /\ d <> [] /\ o = d ++ after_first (op_text x) ++ o' /\ reads_lines true h' rs' o'
    else reads_lines good h' rs' o
  | (_, x) :: h', Some _ :: rs' => reads_lines (good && negb (is_write x)) h' rs' o
  | _, _ => line_terminated o /\ (good = true -> o = [])
  end.
