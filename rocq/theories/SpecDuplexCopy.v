(** Specification of copying from one duplexer to another: what the receiving side must
    be ready for. *)
From Coq Require Import NArith List Bool.
From Verif Require Import Base Chars SpecText Input Output SpecWrite SpecStatus.
Import ListNotations.

(** A writer that has not failed, and to which the text may be written: at the start, and
    after a flush, it must not begin with a non-starter. *)
Definition accepts (d : doc) (t : list N) : Prop := failed d = false /\ (fresh d = true -> starts_ok t).
(** The same for text that comes in several reads and is flushed at pushes. *)
Definition ready (d : doc) (rs : list (read_result * list N)) : Prop :=
  failed d = false /\ (fresh d = true -> forall r cs t, rs = (r, cs) :: t -> starts_ok cs) /\ push_safe rs.
(** Reading leaves the other side alone, or puts it at the start of a line. *)
Definition touched (w w' : writer) : Prop := w' = w \/ w' = set_wst w (WGround Newline).
