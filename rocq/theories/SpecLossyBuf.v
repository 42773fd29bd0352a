(** Vocabulary for the lossy lines of a BufReader. *)
From Coq Require Import NArith List.
From Verif Require Import Base Utf8 Lines SpecBuf.
Import ListNotations.
Local Open Scope N_scope.

(** The items of text_lines_lossy for the finished lines of a text. *)
Definition lossy_items_for (debug : bool) (conv : list N -> option (list N)) (s : list N) (its : list item) : Prop :=
  exists u l, encode_all s = u ++ l /\ ~ In 0xA l /\ (u = [] \/ ended u) /\ text_lines_lossy debug conv u = Some its.
