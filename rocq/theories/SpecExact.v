(** When an exact read can fill its buffer. *)
From Coq Require Import NArith List.
From Verif Require Import Base Utf8.
Import ListNotations.
Local Open Scope N_scope.
(** The reader gives its text in the pieces [l]; [blen] bytes are asked for.  They
    end inside a piece, with a character of four bytes, and 136 bytes or more were
    still missing where that piece begins. *)
Definition fits (l : list (list N)) (blen : nat) : Prop :=
  exists before p c q after, l = before ++ (p ++ c :: q) :: after /\ 0x10000 <= c /\ (str_len (concat before) + 136 <= blen)%nat /\ str_len (concat before ++ p ++ [c]) = blen.
