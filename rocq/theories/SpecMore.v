(** Vocabulary for statements that combine reading, writing and strings. *)
From Coq Require Import NArith List Bool.
From Verif Require Import Base Ucd Norm Chars TextUtils SpecText SpecWrite Utf8.
Import ListNotations.
Local Open Scope N_scope.

(** Ordinary text: allowed, assigned characters, and no run of more than 30
    non-starters. *)
Definition plain (s : list N) : Prop := Forall allowed s /\ Forall (fun c => is_assigned c = true) s /\ stream_safe_text s.

(** What a file holds: the text, with a byte order mark or CR LF line ends if
    these modes were chosen. *)
Definition stored (bom cr : bool) (t : list N) : list N := (if bom then [0xFEFF] else []) ++ as_sent cr t.

(** The bytes [b] are the UTF-8 encoding of a text that satisfies [ok]. *)
Definition encodes (ok : list N -> Prop) (b : list N) : Prop := exists s, scalars s /\ b = encode_all s /\ ok s.

(** Each unassigned character directly after U+34F is followed by U+34F or by
    another unassigned character. *)
Definition closed_guards (s : list N) : Prop := forall a c b, s = a ++ 0x34F :: c :: b -> is_assigned c = false ->
  exists d b', b = d :: b' /\ (d = 0x34F \/ is_assigned d = false).
