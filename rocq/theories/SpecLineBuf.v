(** Lines that fit in a buffer, and what a copy has read. *)
From Coq Require Import NArith List.
From Verif Require Import Base StdBuf SpecBuf.
Import ListNotations.
Local Open Scope N_scope.

(** Bytes written in pieces: each piece, with the unfinished line before it, is shorter
    than the buffer. *)
Definition bytes_fit (cap : nat) (ps : list (list N)) : Prop :=
  forall a p b l, ps = a ++ p :: b -> unfinished (concat a) l -> (length l + length p < cap)%nat.
(** No line of the bytes, with [n] bytes more, fills the buffer. *)
Definition lines_within (cap n : nat) (bs : list N) : Prop :=
  forall u l v, bs = u ++ l ++ v -> u = [] \/ ended u -> ~ In 0xA l -> (length l + n < cap)%nat.
(** The pieces among the results of reads. *)
Definition pieces_of (rs : list buf_result) : list (list N) := flat_map (fun r => match r with BOk bs => [bs] | _ => [] end) rs.
(** Neither the end nor an error. *)
Definition running (rs : list buf_result) : Prop := ~ In (BOk []) rs /\ ~ In BErr rs.
