(** Vocabulary for damaged lines. *)
From Coq Require Import NArith List.
From Verif Require Import Base Utf8 SpecText SpecWrite SpecMore.
From Verif Require Import TextUtils.
From Verif Require SpecColour SpecUtf8.
Import ListNotations.
Local Open Scope N_scope.

(** The text [t] is valid and made of complete lines. *)
Definition whole_lines (t : list N) : Prop := string_ok t /\ line_terminated t /\ Forall (fun c => is_scalar c = true) t.
(** The bytes of a stream: the stored lines [before], then a line of any bytes [g], then the
    lines [after]; either may have been sent with or without carriage returns. *)
Definition with_damage (bom cr cr2 : bool) (before g after : list N) : list N :=
  encode_all (stored bom cr before) ++ g ++ [0xA] ++ encode_all (as_sent cr2 after).
(** Complete lines [u] with colours; without them they are the lines [v]. *)
Definition coloured_lines (u v : list N) : Prop := SpecColour.uncoloured u v /\ line_terminated u /\ whole_lines v.
(** Text that begins with [f] and a line end is written behind the bytes [b], and it is clear
    that it belongs to no escape sequence: it begins with the line end, or with an escape
    sequence, or the bytes have no sequence that is cut off. *)
Definition new_start (f b : list N) : Prop :=
  f = [] \/ (exists f', f = 0x1B :: f') \/ (forall d, SpecUtf8.lossy_decoding b d -> exists w, SpecColour.uncoloured d w).
