(** Specification: reads after which a writer may be flushed at each push. *)
From Coq Require Import NArith List Bool.
From Verif Require Import Base Chars SpecText Input.
Import ListNotations.

(** At each reported push the text just read does not end with a non-ender, and the text
    of the next read does not begin with a non-starter. *)
Definition push_safe (rs : list (read_result * list N)) : Prop :=
  forall a n cs b, rs = a ++ (ROk n Push, cs) :: b -> ends_ok cs /\ forall r cs' t, b = (r, cs') :: t -> starts_ok cs'.
