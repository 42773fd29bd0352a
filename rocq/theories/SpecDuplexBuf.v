(** Vocabulary for conversations with a BufReader over a TextDuplexer. *)
From Coq Require Import NArith List Bool.
From Verif Require Import Base Utf8 Input Output SpecWrite Duplex StdBuf DuplexBuf.
Import ListNotations.
Local Open Scope N_scope.

(** The calls that write, and how many lines are asked for. *)
Definition bouts (os : list bop) : list wop := flat_map (fun o => match o with BOut o => [o] | BLine => [] end) os.
Fixpoint asked (os : list bop) : nat := match os with [] => O | BLine :: t => S (asked t) | _ :: t => asked t end.
(** The lines that were read, and the results of the writes. *)
Definition got (rs : list bresult) : list (list N * bool) := flat_map (fun r => match r with BGot l ok => [(l, ok)] | _ => [] end) rs.
Definition wrote (rs : list bresult) : list dresult := flat_map (fun r => match r with BWrote r => [r] | _ => [] end) rs.
(** The results of the writes of a history of a duplexer. *)
Definition writes (rs : list dresult) : list dresult := filter (fun r => match r with DGot _ _ => false | _ => true end) rs.
(** The text that was written. *)
Definition btext (os : list bop) : list N := concat (map op_text (bouts os)).
(** Calls that write plain text, without abandon. *)
Definition plain_bop (o : bop) : Prop := match o with BLine => True | BOut o => plain_op o /\ o <> OpAbandon end.
(** Reading lines one after the other with a BufReader over a TextReader (StdBuf.v). *)
Fixpoint buf_each (fuel : nat) (b : bufreader) (n : nat) : option (list (list N * bool) * bufreader) :=
  match n with
  | O => Some ([], b)
  | S m => match buf_until fuel b with
           | Some (l, ok, b') => match buf_each fuel b' m with Some (ls, e) => Some ((l, ok) :: ls, e) | None => None end
           | None => None
           end
  end.
