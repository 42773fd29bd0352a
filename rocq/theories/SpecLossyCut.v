(** The lossy conversion, with the reads it makes of the string shown. *)
From Coq Require Import NArith List.
From Verif Require Import Base Input Strings SpecRead SpecCat.
Import ListNotations.
Local Open Scope N_scope.

(** from_text_lossy of the string [v] reads it as [script] and gives [r]; see
    SpecString.lossy, which says that there is some such script. *)
Definition lossy_by (script : list event) (v : list N) (r : option (list N)) : Prop :=
  stream_text script = v /\ no_push script /\ no_fail script /\ bom_visible script /\
  exists text, gives false false script text /\ r = lossy_result v text.
