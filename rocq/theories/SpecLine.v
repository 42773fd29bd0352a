(** Specification of reading a line from a source that arrives in pieces. *)
From Coq Require Import NArith List.
From Verif Require Import Base SpecText LineIo.
Import ListNotations.
Local Open Scope N_scope.

(** Pieces with bytes in them and no 0xA. *)
Definition no_line_end (us : list (list N)) : Prop := Forall (fun u => u <> [] /\ ~ In 0xA u) us.

(** How a line ends: with its 0xA or the end of the file, or with an error. *)
Inductive ending := Complete | Cut.

(** [next_part src line e rest]: [line] are the next bytes of the source, up to
    and including the first 0xA, or up to the end of the file or the failure that
    comes before it; [rest] comes after them. *)
Inductive next_part : list piece -> list N -> ending -> list piece -> Prop :=
| part_line : forall us u v rest, no_line_end us -> ~ In 0xA u ->
    next_part (map Bytes us ++ Bytes (u ++ 0xA :: v) :: rest) (concat us ++ u ++ [0xA]) Complete (keep v rest)
| part_last : forall us, no_line_end us -> next_part (map Bytes us) (concat us) Complete []
| part_eof : forall us rest, no_line_end us -> next_part (map Bytes us ++ Bytes [] :: rest) (concat us) Complete rest
| part_cut : forall us rest, no_line_end us -> next_part (map Bytes us ++ Failure :: rest) (concat us) Cut rest.

(** The bytes of a source that does not fail. *)
Definition all_bytes (src : list piece) : list N := flat_map (fun p => match p with Bytes bs => bs | Failure => [] end) src.
Definition sound (src : list piece) : Prop := Forall (fun p => exists bs, bs <> [] /\ p = Bytes bs) src.
