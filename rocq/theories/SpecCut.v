(** Where the reads of a stream are cut. *)
From Coq Require Import NArith List.
From Verif Require Import Base TextUtils Input.
Import ListNotations.
Local Open Scope N_scope.

(** The texts of the inner reads, up to the one that ends the stream; a script
    that is used up ends the stream with an empty read. *)
Fixpoint pieces_read (script : list event) : list (list N) :=
  match script with
  | [] => [[]]
  | Chunk cs End :: _ => [cs]
  | Chunk cs _ :: t => cs :: pieces_read t
  | Fail :: t => pieces_read t
  end.

(** A cut between [p] and [r] separates U+34F from the unassigned character
    after it: no later U+A or U+34F of [p] could be waited for. *)
Definition bad_cut (p r : list N) : Prop :=
  exists a d c b, p = a ++ 0x34F :: d /\ ~ In 0x34F d /\ ~ In 0xA d /\ d ++ r = c :: b /\ is_assigned c = false.
(** Some read ends at such a place. *)
Definition badly_cut (script : list event) : Prop :=
  exists x y z, pieces_read script = x ++ y :: z /\ bad_cut (concat x) (concat (y :: z)).
