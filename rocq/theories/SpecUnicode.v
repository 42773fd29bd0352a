(** Normalization as the Unicode Standard defines it (sections 3.11 and 3.12, D105
    to D118, and UAX #15, section 13), over the data of the Unicode Character
    Database in UcdTables.v.  Nothing of the model is used. *)
From Coq Require Import NArith List Bool.
From Verif Require Import UcdTables.
Import ListNotations.
Local Open Scope N_scope.

Definition value {A} (c : N) (l : list (N * A)) : option A :=
  match find (fun e => fst e =? c) l with Some e => Some (snd e) | None => None end.

(** D104: Canonical_Combining_Class, 0 if it is not listed. *)
Definition class (c : N) : N := match value c raw_ccc with Some k => k | None => 0 end.

(** Section 3.12: the syllable with number [i] is made of a leading consonant, a
    vowel and perhaps a trailing consonant. *)
Definition syllable (c : N) : Prop := 0xAC00 <= c <= 0xD7A3.
Definition jamos (c : N) : list N :=
  let i := c - 0xAC00 in
  [0x1100 + i / 588; 0x1161 + i mod 588 / 28] ++ if i mod 28 =? 0 then [] else [0x11A7 + i mod 28].

(** D68, D65: the canonical and the compatibility decomposition of a character
    (the data gives them in full). *)
Inductive decomposes : N -> list N -> Prop :=
| dec_hangul : forall c, syllable c -> decomposes c (jamos c)
| dec_listed : forall c d, ~ syllable c -> value c raw_canon = Some d -> decomposes c d
| dec_itself : forall c, ~ syllable c -> value c raw_canon = None -> decomposes c [c].
Inductive decomposes_k : N -> list N -> Prop :=
| deck_listed : forall c d, value c raw_compat = Some d -> decomposes_k c d
| deck_canon : forall c d, value c raw_compat = None -> decomposes c d -> decomposes_k c d.

(** D108, D109: two neighbours whose classes are in the wrong order are exchanged,
    until there are none. *)
Definition reorderable (x y : N) : Prop := class y < class x /\ 0 < class y.
Inductive reorder : list N -> list N -> Prop :=
| reorder_done : forall s, (forall a x y b, s = a ++ x :: y :: b -> ~ reorderable x y) -> reorder s s
| reorder_swap : forall a x y b t, reorderable x y -> reorder (a ++ y :: x :: b) t -> reorder (a ++ x :: y :: b) t.

(** D118, D119: Normalization Forms D and KD. *)
Definition to_nfd (s t : list N) : Prop := exists ds, Forall2 decomposes s ds /\ reorder (concat ds) t.
Definition to_nfkd (s t : list N) : Prop := exists ds, Forall2 decomposes_k s ds /\ reorder (concat ds) t.

(** D70: canonical equivalence. *)
Definition equivalent (s t : list N) : Prop := exists d, to_nfd s d /\ to_nfd t d.

(** D114: a primary composite is decomposable and not excluded from composition
    (Full_Composition_Exclusion is the same as NFC_Quick_Check=No). *)
Definition primary_composite (p : N) : Prop := (exists d, decomposes p d /\ d <> [p]) /\ ~ In p raw_qc_no.

(** D115: [b] is what is between a starter and [c]. *)
Definition blocked (b : list N) (c : N) : Prop := exists x, In x b /\ (class x = 0 \/ class c <= class x).

(** D117: what happens to the character [c] after [u]: the last starter is replaced
    by a primary composite. *)
Inductive composes (c : N) : list N -> list N -> Prop :=
| comp : forall a l b p, class l = 0 -> Forall (fun x => class x <> 0) b -> ~ blocked b c ->
    primary_composite p -> equivalent [p] [l; c] -> composes c (a ++ l :: b) (a ++ p :: b).
(** [composition u s t]: after [u], the remaining characters [s] give in all [t]. *)
Inductive composition : list N -> list N -> list N -> Prop :=
| comp_end : forall u, composition u [] u
| comp_yes : forall u c s v t, composes c u v -> composition v s t -> composition u (c :: s) t
| comp_no : forall u c s t, (forall v, ~ composes c u v) -> composition (u ++ [c]) s t -> composition u (c :: s) t.

(** D120: Normalization Form C. *)
Definition to_nfc (s t : list N) : Prop := exists d, to_nfd s d /\ composition [] d t.

(** UAX #15, section 13: in Normalization Form KD at most 30 non-starters follow one
    another. *)
Definition stream_safe_format (s : list N) : Prop :=
  forall d a run b, to_nfkd s d -> d = a ++ run ++ b -> Forall (fun c => class c <> 0) run -> (length run <= 30)%nat.
(** Stream-Safe text process: U+34F is put before a character where the text would
    not be in the Stream-Safe Text Format without it. *)
Inductive make_safe : list N -> list N -> list N -> Prop :=
| safe_end : forall u, make_safe u [] u
| safe_yes : forall u c s t, stream_safe_format (u ++ [c]) -> make_safe (u ++ [c]) s t -> make_safe u (c :: s) t
| safe_no : forall u c s t, ~ stream_safe_format (u ++ [c]) -> make_safe (u ++ [0x34F; c]) s t -> make_safe u (c :: s) t.
