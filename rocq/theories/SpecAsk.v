(** Reading from the stream below. *)
From Coq Require Import List.
From Verif Require Import Base Input.
Import ListNotations.

(** The stream was read once: one event is used up, the events after an end are
    never seen, and after the last event there is nothing left to use up. *)
Inductive asked : list event -> list event -> Prop :=
| ask_read : forall e t, asked (e :: t) t
| ask_end : forall cs t, asked (Chunk cs End :: t) []
| ask_ended : asked [] [].

(** The stream does not end. *)
Definition still_open (script : list event) : Prop := forall cs, ~ In (Chunk cs End) script.
