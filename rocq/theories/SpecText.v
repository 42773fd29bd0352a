(** Specification of Basic Text strings and streams, from the definitions in
    /repo/docs/BasicText.md:16-44 and its Sequence Table.  It uses the Unicode
    data and the Unicode algorithms (NFC, decompositions, combining classes),
    but none of the checking or converting functions of /repo. *)
From Coq Require Import NArith List Bool.
From Verif Require Import Base Ucd Norm Chars DocTable TextUtils.
Import ListNotations.
Local Open Scope N_scope.

(** The row of the Sequence Table for a scalar value.  U+C and U+1B are the
    one-element cases of the rows "[U+C]+" and "[U+1B]+". *)
Definition doc_lookup (c : N) : option doc_action :=
  if c =? 0xC then Some (Fixed [0x20])
  else if c =? 0x1B then Some (Fixed [])
  else match find (fun r => in_range c (fst (fst r)) (snd (fst r))) doc_rows with
       | Some r => Some (snd r)
       | None => None
       end.

(** A scalar value that occurs in no sequence of the table. *)
Definition allowed (c : N) : Prop := doc_lookup c = None.

(** Stream-Safe: in the compatibility decomposition no run of non-starters is
    longer than 30 (UAX #15, D4). *)
Definition stream_safe_text (s : list N) : Prop :=
  forall a run b, flat_map kd s = a ++ run ++ b ->
    Forall (fun c => ccc c <> 0) run -> (length run <= 30)%nat.

(** Normalization Form C: the text is its own NFC. *)
Definition nfc_text (s : list N) : Prop := nfc s = s.

(** What the type TextSubstr promises: Stream-Safe NFC without forbidden
    scalar values. *)
Definition substring_ok (s : list N) : Prop :=
  nfc_text s /\ stream_safe_text s /\ Forall allowed s.

Definition starts_ok (s : list N) : Prop := forall c t, s = c :: t -> is_basic_text_start c = true.
Definition ends_ok (s : list N) : Prop := forall t c, s = t ++ [c] -> is_basic_text_end c = true.

(** What the types TextStr and TextString promise. *)
Definition string_ok (s : list N) : Prop := substring_ok s /\ starts_ok s /\ ends_ok s.

(** Each unassigned scalar value is preceded and followed by U+34F. *)
Definition isolated (s : list N) : Prop :=
  forall a c b, s = a ++ c :: b -> is_assigned c = false ->
    (exists a', a = a' ++ [0x34F]) /\ (exists b', b = 0x34F :: b').
(** The weaker form: preceded by U+34F. *)
Definition preceded (s : list N) : Prop :=
  forall a c b, s = a ++ c :: b -> is_assigned c = false -> exists a', a = a' ++ [0x34F].

(** A stream is empty or ends with U+A. *)
Definition line_terminated (s : list N) : Prop := s = [] \/ exists t, s = t ++ [0xA].

(** A contiguous part. *)
Definition slice_of (b s : list N) : Prop := exists a c, s = a ++ b ++ c.

(** [t] is [s] with some copies of [x] inserted. *)
Inductive inserts (x : N) : list N -> list N -> Prop :=
| ins_nil : inserts x [] []
| ins_keep : forall c s t, inserts x s t -> inserts x (c :: s) (c :: t)
| ins_add : forall s t, inserts x s t -> inserts x s (x :: t).
