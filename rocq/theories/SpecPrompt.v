(** What a reader holds back. *)
From Coq Require Import NArith List.
From Verif Require Import Base Utf8 Input SpecRead SpecCat.
Import ListNotations.
Local Open Scope N_scope.

(** The last call of a session succeeded, and at least four bytes of its buffer
    were left. *)
Definition left_room (sizes : list nat) (rs : list (read_result * list N)) : Prop :=
  exists sizes' b rs' n s cs, sizes = sizes' ++ [b] /\ rs = rs' ++ [(ROk n s, cs)] /\ (n + 4 <= b)%nat.
(** The last call of a session reported a push. *)
Definition pushed_last (rs : list (read_result * list N)) : Prop := exists rs' n cs, rs = rs' ++ [(ROk n Push, cs)].

(** A session used up exactly the events [used] of the stream; had the stream
    ended there, the text would have been [delivered rs ++ held]. *)
Definition holds (nel lsps : bool) (used rest : list event) (sizes : list nat) (rs : list (read_result * list N)) (j : input) (held : list N) : Prop :=
  reads (new_input nel lsps) (used ++ rest) sizes = (rs, j, rest) /\ gives nel lsps used (delivered rs ++ held).

(** [n] bytes are the encoding of whole characters at the beginning of [s]. *)
Definition whole_chars (s : list N) (n : nat) : Prop := exists a b, s = a ++ b /\ length (encode_all a) = n.
