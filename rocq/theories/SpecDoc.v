(** Basic Text strings and streams word by word as defined in
    /repo/docs/BasicText.md:16-44. *)
From Coq Require Import NArith List Bool.
From Verif Require Import Base Ucd Norm DocTable GcbTable TextUtils SpecText.
Import ListNotations.
Local Open Scope N_scope.

(** docs/BasicText.md:31-38 *)
Definition doc_non_starter (c : N) : Prop := ccc c <> 0 \/ (in_ranges c (gcb_zwj ++ gcb_spacing_mark ++ gcb_extend) = true /\ c <> 0x34F).
(** docs/BasicText.md:40-44 *)
Definition doc_non_ender (c : N) : Prop := in_ranges c (gcb_zwj ++ gcb_prepend) = true.
(** docs/BasicText.md:18-25 *)
Definition documented_string (s : list N) : Prop :=
  (stream_safe_text s /\ nfc_text s) /\
  (forall c t, s = c :: t -> ~ doc_non_starter c) /\
  (forall t c, s = t ++ [c] -> ~ doc_non_ender c) /\
  isolated s /\
  Forall allowed s.
(** docs/BasicText.md:27-29 *)
Definition documented_stream (s : list N) : Prop := documented_string s /\ line_terminated s.
