(** ASCII text. *)
From Coq Require Import NArith List.
From Verif Require Import Base Output.
Import ListNotations.
Local Open Scope N_scope.

(** The ASCII characters that are neither controls nor DEL, and tab and line
    feed. *)
Definition plain_ascii (c : N) : Prop := c = 0x9 \/ c = 0xA \/ 0x20 <= c <= 0x7E.
Definition ascii (c : N) : Prop := c <= 0x7F.

(** The line end that is missing at the end of a text. *)
Definition missing_line_end (s : list N) : list N :=
  match last_opt s with None => [] | Some c => if c =? 0xA then [] else [0xA] end.

(** Writes of ASCII text and flushes, and what they are asked to write.  (The
    bytes of ASCII text are its characters.) *)
Definition ascii_op (o : wop) : Prop :=
  match o with
  | OpWriteStr s | OpWrite s => Forall plain_ascii s
  | OpWriteText s => s <> [] /\ Forall plain_ascii s
  | OpFlush => True
  | OpClose | OpAbandon => False
  end.
Definition op_given (o : wop) : list N :=
  match o with OpWriteStr s | OpWrite s | OpWriteText s => s | _ => [] end.
