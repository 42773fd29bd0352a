(** The CJK compatibility ideographs and their standardized variation sequences
    (/repo/docs/NFC.md:59-98, "CJK Compatibility Ideographs"). *)
From Coq Require Import NArith List Bool.
From Verif Require Import UcdTables.
Import ListNotations.
Local Open Scope N_scope.

(** [raw_cjk] is Unicode data: ideograph, unified ideograph, variation selector. *)
Definition ideograph (c : N) : bool := existsb (fun e => fst e =? c) raw_cjk.
Definition ideographs (s : list N) : list N := filter ideograph s.
(** The selectors that occur in these sequences. *)
Definition selector (v : N) : Prop := 0xFE00 <= v <= 0xFE02.
Definition no_selector (s : list N) : Prop := Forall (fun c => ~ selector c) s.

(** The ideograph that a variation sequence stands for. *)
Definition stands_for (b v : N) : option N :=
  match find (fun e => (snd (snd e) =? v) && (fst (snd e) =? b)) raw_cjk with
  | Some e => Some (fst e)
  | None => None
  end.
(** Every variation sequence replaced by its ideograph. *)
Fixpoint restore (s : list N) : list N :=
  match s with
  | b :: r =>
      match r with
      | v :: t => match stands_for b v with Some i => i :: restore t | None => b :: restore r end
      | [] => [b]
      end
  | [] => []
  end.
