(** Texts that pass through several streams, copied from each to the next. *)
From Coq Require Import NArith List.
From Verif Require Import Base Input Output Copy StdIo SpecRead SpecCat SpecMore.
Import ListNotations.
Local Open Scope N_scope.

(** What copies: copy_text, copy_text_using_status, std::io::copy. *)
Inductive tool := ByText | ByStatus | ByStd.
Definition copies (t : tool) (fuel : nat) (i : input) (sc : list event) (w : writer) (blen : nat) : option (copy_result * input * list event * writer) :=
  match t with
  | ByText => copy_text false fuel i sc w blen 0
  | ByStatus => copy_status fuel i sc w blen 0
  | ByStd => std_copy fuel i sc w blen 0
  end.

(** One hop: how the stream it comes from is read ([source], cut in any way) and with
    which options, what copies and with which buffer, and how the stream it goes to is
    written. *)
Record hop := mkhop { source : list event; nel : bool; lsps : bool; how : tool; blen : nat; bom : bool; crlf : bool }.
(** The stream [source] holds the characters [x] and does not fail. *)
Definition holds_text (h : hop) (x : list N) : Prop := stream_text (source h) = x /\ no_fail (source h) /\ scalar_stream (source h) /\ bom_visible (source h).
(** The hop copies a stream that holds [x], the writer closes, and the next stream holds [y]. *)
Definition hops (h : hop) (x y : list N) : Prop :=
  holds_text h x /\ exists fuel n j rest w w',
    copies (how h) fuel (new_input (nel h) (lsps h)) (source h) (new_writer (crlf h) false (mksink (if bom h then [0xFEFF] else []) [] false)) (blen h) = Some (CopyOk n, j, rest, w) /\
    close w = (None, w') /\ emitted (inner w') = y.
(** One hop after the other. *)
Inductive chain : list hop -> list N -> list N -> Prop :=
| chain_one : forall h x y, hops h x y -> chain [h] x y
| chain_more : forall h hs x y z, hops h x y -> chain hs y z -> chain (h :: hs) x z.
(** The text that a hop reads. *)
Definition reads_text (h : hop) (t : list N) : Prop := gives (nel h) (lsps h) (source h) t.
(** The last stream of the chain holds the text [t], with a byte order mark or CR LF line
    ends if the last hop writes them. *)
Definition written_by (hs : list hop) (t y : list N) : Prop := exists hs' h, hs = hs' ++ [h] /\ y = stored (bom h) (crlf h) t.
