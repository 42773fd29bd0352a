(** Decoding of bytes that may be ill-formed, as the Unicode Standard recommends
    (section 3.9, "U+FFFD Substitution of Maximal Subparts") and as
    String::from_utf8_lossy documents. *)
From Coq Require Import NArith List Bool.
From Verif Require Import Base Utf8.
Import ListNotations.
Local Open Scope N_scope.

(** The bytes with which the encoding of some scalar value starts. *)
Definition starts_char (m : list N) : Prop := exists c u, is_scalar c = true /\ encode c = m ++ u.
(** [m] is the ill-formed part at the front of [m ++ t] that one U+FFFD replaces:
    no character starts here, and [m] is the longest part that could begin one,
    or a single byte. *)
Definition maximal_subpart (m t : list N) : Prop :=
  m <> [] /\
  (forall c u, is_scalar c = true -> m ++ t <> encode c ++ u) /\
  (length m = 1%nat \/ starts_char m) /\
  (forall m' t', m ++ t = m' ++ t' -> starts_char m' -> (length m' <= length m)%nat).
Inductive lossy_decoding : list N -> list N -> Prop :=
| ld_nil : lossy_decoding [] []
| ld_char : forall c t r, is_scalar c = true -> lossy_decoding t r -> lossy_decoding (encode c ++ t) (c :: r)
| ld_bad : forall m t r, maximal_subpart m t -> lossy_decoding t r -> lossy_decoding (m ++ t) (0xFFFD :: r).
