(** A reader whose underlying stream is another reader; readers with different
    options; a writer whose underlying stream is another writer. *)
From Coq Require Import NArith List.
From Verif Require Import Base Input Output SpecText SpecRead.
Import ListNotations.
Local Open Scope N_scope.

(** The calls of one session, as the reads of another one see them. *)
Definition layer (rs : list (read_result * list N)) : list event :=
  map (fun r => match fst r with ROk _ s => Chunk (snd r) s | _ => Fail end) rs.
(** All calls succeed, and the last one is the only one to report the end. *)
Definition ends_once (rs : list (read_result * list N)) : Prop :=
  exists rs' n cs, rs = rs' ++ [(ROk n End, cs)] /\ Forall (fun r => exists m s, fst r = ROk m s /\ s <> End) rs'.
(** Two readers whose options differ at most for separators that [s] does not
    contain. *)
Definition indifferent (nel lsps nel2 lsps2 : bool) (s : list N) : Prop :=
  (nel = nel2 \/ ~ In 0x85 s) /\ (lsps = lsps2 \/ (~ In 0x2028 s /\ ~ In 0x2029 s)).
(** Text written through the TextSubstr interface has U+34F before each
    unassigned scalar value. *)
Definition preceded_op (o : wop) : Prop := match o with OpWriteText s => preceded s | _ => True end.
(** A text written through the TextSubstr interface, written as a string. *)
Definition as_string (o : wop) : wop := match o with OpWriteText s => OpWriteStr s | _ => o end.
