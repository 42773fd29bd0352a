(** Model of copying text from one TextDuplexer to another with /repo/src/copy.rs. *)
From Coq Require Import NArith List Bool.
From Verif Require Import Base Chars Input Output Copy Duplex.
Import ListNotations.
Local Open Scope N_scope.

(** text_duplexer.rs:364-367 write_text_substr *)
Definition duplex_write_text (d : duplexer) (cs : list N) : wresult * duplexer :=
  let '(r, w) := write_text (dout d) cs in (r, mkduplexer (din d) w (dscript d)).
(** text_duplexer.rs:378-381 flush *)
Definition duplex_flush (d : duplexer) : wresult * duplexer :=
  let '(r, w) := flush (dout d) in (r, mkduplexer (din d) w (dscript d)).

(** copy.rs:19-28 copy_text, the loop, as copy_text in Copy.v, from the duplexer [a]
    to the duplexer [b]; read_text_substr is text_duplexer.rs:296-300.  [None]: the
    fuel is used up. *)
Fixpoint duplex_copy (intr : bool) (fuel : nat) (a b : duplexer) (blen written : nat) : option (copy_result * duplexer * duplexer) :=
  match fuel with
  | O => None
  | S f =>
      let '(r, cs, a') := duplex_read a blen in
      match std_result intr r with
      | SOk O => Some (CopyOk written, a', b)
      | SOk n => match duplex_write_text b cs with
                 | (None, b') => duplex_copy intr f a' b' blen (written + n)
                 | (Some e, b') => Some (CopyWrite e, a', b')
                 end
      | SInterrupted => duplex_copy intr f a' b blen written
      | SErr => Some (CopyRead, a', b)
      end
  end.

(** copy.rs:48-58 copy_text_using_status, the loop; read_text_substr_with_status is
    text_duplexer.rs:318-323 *)
Fixpoint duplex_copy_status (fuel : nat) (a b : duplexer) (blen written : nat) : option (copy_result * duplexer * duplexer) :=
  match fuel with
  | O => None
  | S f =>
      let '(r, cs, a') := duplex_read a blen in
      match r with
      | ROk n s =>
          match duplex_write_text b cs with
          | (Some e, b') => Some (CopyWrite e, a', b')
          | (None, b') =>
              match s with
              | End => Some (CopyOk (written + n), a', b')
              | Push => match duplex_flush b' with
                        | (Some e, b'') => Some (CopyWrite e, a', b'')
                        | (None, b'') => duplex_copy_status f a' b'' blen (written + n)
                        end
              | Active => duplex_copy_status f a' b' blen (written + n)
              end
          end
      | _ => Some (CopyRead, a', b)
      end
  end.
