(** Reading all the text. *)
From Coq Require Import List.
From Verif Require Import Base Input.
Import ListNotations.

(** A read of the stream fails before the stream is at its end. *)
Definition fails_early (script : list event) : Prop :=
  exists a b, script = a ++ Fail :: b /\ forall cs, ~ In (Chunk cs End) a.
