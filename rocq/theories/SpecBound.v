(** Sizes, for C78. *)
From Coq Require Import NArith List.
From Verif Require Import Base Utf8 Output.
Import ListNotations.
Local Open Scope N_scope.

(** The number of bytes an operation of a writer is given. *)
Definition given (o : wop) : nat :=
  match o with OpWriteStr s | OpWriteText s => length (encode_all s) | OpWrite bs => length bs | _ => 0%nat end.
