(** Model of a conversation: two TextDuplexers (/repo/src/text_duplexer.rs) at the two ends of
    a connection that carries what each of them sends to the other, in order, in pieces of
    any size and with any delay. *)
From Coq Require Import NArith List Bool.
From Verif Require Import Base Input Output Duplex.
Import ListNotations.
Local Open Scope N_scope.

(** One end: its duplexer (text_duplexer.rs:29-36), how many of the characters sent by the
    other end it has taken from the connection, whether it has seen the end of them, and
    whether it has closed its own.  (Simplification: the connection carries characters; the
    Utf8Duplexer below a TextDuplexer hands on whole characters.) *)
Record side := mkside { here : duplexer; taken : nat; over : bool; shut : bool }.
(** text_duplexer.rs:41-81 new and its variants *)
Definition new_side (nel lsps cr an : bool) (o : list wout) : side := mkside (new_duplexer nel lsps cr an (mksink [] o false) []) 0 false false.

(** An operation at one end.  For a read, [None]: the connection reports an error;
    [Some (n, s)]: it hands out up to [n] characters of what has arrived, with the status
    [s]; the end is reported only when the other end has closed and all it sent is handed
    out. *)
Inductive top := TRead (blen : nat) (arrived : option (nat * status)) | TOut (o : wop).
Definition incoming (me other : side) : list N := skipn (taken me) (emitted (inner (dout (here other)))).
Definition offer (me other : side) (arrived : option (nat * status)) : list event :=
  if over me then []
  else match arrived with
       | None => [Fail]
       | Some (n, s) =>
           [Chunk (firstn n (incoming me other)) (match s with End => if shut other && Nat.leb (length (incoming me other)) n then End else Active | s => s end)]
       end.
(** text_duplexer.rs:229-239 read_with_status and 349-399 the writing side.  What the read
    did not ask for stays in the connection. *)
Definition side_step (me other : side) (t : top) : dresult * side :=
  match t with
  | TRead blen a =>
      let sc := offer me other a in
      let '(r, d) := do_dop (mkduplexer (din (here me)) (dout (here me)) sc) (DRead blen) in
      let d' := mkduplexer (din d) (dout d) [] in
      match dscript d, sc with
      | [], [Chunk cs s] => (r, mkside d' (taken me + length cs) (match s with End => true | _ => false end) (shut me))
      | _, _ => (r, mkside d' (taken me) (over me) (shut me))
      end
  | TOut o =>
      let '(r, d) := do_dop (here me) (DOut o) in
      (r, mkside d (taken me) (over me) (shut me || match o, r with OpClose, DWrote None => true | _, _ => false end))
  end.
(** A conversation: each operation is marked with its end, [true] for the first one. *)
Fixpoint talk (a b : side) (os : list (bool * top)) : list (bool * dresult) * (side * side) :=
  match os with
  | [] => ([], (a, b))
  | (w, o) :: os' =>
      let '(r, x) := if w then side_step a b o else side_step b a o in
      let '(rs, e) := if w then talk x b os' else talk a x os' in
      ((w, r) :: rs, e)
  end.
