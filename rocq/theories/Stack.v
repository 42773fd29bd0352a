(** Model of a text writer whose stream is another text writer:
    TextWriter<Inner: WriteStr + WriteLayered> (/repo/src/text_writer.rs:39-45)
    with a TextWriter as its [Inner]. *)
From Coq Require Import NArith List Bool.
From Verif Require Import Base Output.
Import ListNotations.
Local Open Scope N_scope.

(** The outer writer with its stream about to answer as [o] says *)
Definition answered (w : writer) (o : list wout) : writer :=
  set_inner w (mksink (emitted (inner w)) o (abandoned (inner w))).

(** What the outer writer's operation asks of its stream: one call of write_str
    with what it sends (/repo/src/text_output.rs:262-292 write_buffer), of flush
    (512) or of close (433). *)
Definition request (o : wop) (w w' : writer) : wop :=
  match o with
  | OpFlush => OpFlush
  | OpClose => OpClose
  | OpAbandon => OpAbandon
  | _ => OpWriteStr (skipn (length (emitted (inner w))) (emitted (inner w')))
  end.

(** text_output.rs:557-562 prepare_failure abandons the stream, here the inner
    writer *)
Definition pass_abandon (w i : writer) : writer := if abandoned (inner w) then abandon i else i.

(** One operation on the outer writer [w] over the inner writer [i].  An
    operation that the outer writer refuses makes no call, an operation it lets
    through succeeds or fails as the inner writer's call does.  Simplification:
    after the stream is abandoned, no call on it is made, since it would fail
    without effect. *)
Definition stack_op (w i : writer) (o : wop) : wresult * (writer * writer) :=
  match do_op (answered w []) o with
  | (Some e, w') => (Some e, (w', pass_abandon w' i))
  | (None, w') =>
      match do_op i (request o w w') with
      | (None, i') => (None, (w', i'))
      | (Some e, i') => let w'' := snd (do_op (answered w [WErr 0]) o) in (Some e, (w'', pass_abandon w'' i'))
      end
  end.
(** A history of the outer writer. *)
Fixpoint stack_ops (w i : writer) (os : list wop) : list wresult * (writer * writer) :=
  match os with
  | [] => ([], (w, i))
  | o :: t => let '(r, (w', i')) := stack_op w i o in
              let '(rs, wi) := stack_ops w' i' t in (r :: rs, wi)
  end.
