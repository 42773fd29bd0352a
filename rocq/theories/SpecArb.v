(** Specification: the UTF-8 at the front of some bytes. *)
From Coq Require Import NArith List.
From Verif Require Import Base Utf8 Utf8Facts.
Import ListNotations.

(** [s] is the longest text whose encoding the bytes begin with. *)
Definition utf8_front (b : list N) (s : list N) : Prop :=
  scalars s /\ (exists rest, b = encode_all s ++ rest) /\ forall s' rest', scalars s' -> b = encode_all s' ++ rest' -> exists u, s = s' ++ u.
