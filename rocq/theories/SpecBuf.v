(** Vocabulary for statements about buffered readers and writers. *)
From Coq Require Import NArith List Bool.
From Verif Require Import Base Ucd Norm Chars TextUtils Utf8 Input Output Copy StdIo Strings Lines LineIo StdBuf.
Import ListNotations.
Local Open Scope N_scope.

(** The bytes that the successful calls gave. *)
Definition bytes_given (rs : list buf_result) : list N := flat_map (fun r => match r with BOk bs => bs | _ => [] end) rs.

(** How many calls failed. *)
Definition errors_given (rs : list buf_result) : nat := length (filter (fun r => match r with BErr => true | _ => false end) rs).
Definition reads_failed (xs : list (read_result * list N)) : nat := length (filter (fun x => match fst x with ROk _ _ => false | _ => true end) xs).

(** The texts that reads gave between failures. *)
Fixpoint segments (xs : list (read_result * list N)) : list (list N) :=
  match xs with
  | [] => [[]]
  | (ROk _ _, cs) :: t => match segments t with s :: r => (cs ++ s) :: r | [] => [] end
  | _ :: t => [] :: segments t
  end.

(** The end of a line. *)
Definition ended (s : list N) : Prop := exists u, s = u ++ [0xA].
(** The items of text_lines for the finished lines of a text. *)
Definition items_for (debug : bool) (s : list N) (its : list item) : Prop :=
  exists u l, encode_all s = u ++ l /\ ~ In 0xA l /\ (u = [] \/ ended u) /\ text_lines debug u = Some its.
(** The unfinished last line of a text. *)
Definition unfinished (s l : list N) : Prop := ~ In 0xA l /\ exists u, s = u ++ l /\ (u = [] \/ ended u).
(** Each piece, with the unfinished line before it, is shorter than the buffer. *)
Definition fits (cap : nat) (ps : list (list N)) : Prop :=
  forall a p b l, ps = a ++ p :: b -> unfinished (concat a) l -> (str_len l + str_len p < cap)%nat.
