(** Specification of the line filters of /repo/examples (C79). *)
From Coq Require Import NArith List Bool.
From Verif Require Import Base.
Import ListNotations.
Local Open Scope N_scope.

(** Line ends CR LF become LF. *)
Fixpoint unix (s : list N) : list N :=
  match s with
  | [] => []
  | c :: t => if (c =? 0xD) && match t with d :: _ => d =? 0xA | [] => false end then unix t else c :: unix t
  end.
(** Text that is not empty ends with a line feed. *)
Definition terminated (s : list N) : list N :=
  match last_opt s with
  | None => []
  | Some c => if c =? 0xA then s else s ++ [0xA]
  end.
(** Somewhere CR LF. *)
Definition has_crlf (s : list N) : Prop := exists a b, s = a ++ 0xD :: 0xA :: b.
