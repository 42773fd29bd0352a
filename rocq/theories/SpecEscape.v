(** The control-code and escape rows of the Sequence Table in
    /repo/docs/BasicText.md:53-64, read as a grammar, and leftmost-longest
    replacement.  Nothing here refers to the reader's state machine. *)
From Coq Require Import NArith List Bool.
From Verif Require Import Base.
Import ListNotations.
Local Open Scope N_scope.

(** "[U+X]+" *)
Definition run_of (x : N) (l : list N) : Prop := l <> [] /\ Forall (fun c => c = x) l.
(** "[U+20-U+3F]" *)
Definition parameter (c : N) : Prop := 0x20 <= c <= 0x3F.
(** "[U+40-U+7E]", or U+18 as well when [can] is set: the code also lets CAN end
    a CSI or ESC sequence, which the table does not say. *)
Definition final (can : bool) (c : N) : Prop := 0x40 <= c <= 0x7E \/ (can = true /\ c = 0x18).
(** "[^U+7,U+18,U+1B]" and "[U+7,U+18]" *)
Definition osc_char (c : N) : Prop := c <> 0x7 /\ c <> 0x18 /\ c <> 0x1B.
Definition osc_end (c : N) : Prop := c = 0x7 \/ c = 0x18.

(** [row can rep m r]: the sequence [m] is in the table, with replacement [r].
    [rep] gives the replacement of the one-character rows, and the character
    itself when there is none. *)
Inductive row (can : bool) (rep : N -> list N) : list N -> list N -> Prop :=
| row_crlf : row can rep [0xD; 0xA] [0xA]
| row_cr : row can rep [0xD] [0xA]
| row_ff_crlf : forall f, run_of 0xC f -> row can rep (f ++ [0xD; 0xA]) [0xA]
| row_ff_lf : forall f, run_of 0xC f -> row can rep (f ++ [0xA]) [0xA]
| row_ff_cr : forall f, run_of 0xC f -> row can rep (f ++ [0xD]) [0xA]
| row_ff : forall f, run_of 0xC f -> row can rep f [0x20]
| row_linux : forall e, run_of 0x1B e -> row can rep (e ++ [0x5B; 0x5B]) []
| row_linux_char : forall e c, run_of 0x1B e -> c <= 0x7F -> row can rep (e ++ [0x5B; 0x5B; c]) []
| row_csi : forall e p, run_of 0x1B e -> Forall parameter p -> row can rep (e ++ 0x5B :: p) []
| row_csi_final : forall e p c, run_of 0x1B e -> Forall parameter p -> final can c -> row can rep (e ++ 0x5B :: p ++ [c]) []
| row_osc : forall e b, run_of 0x1B e -> Forall osc_char b -> row can rep (e ++ 0x5D :: b) []
| row_osc_end : forall e b c, run_of 0x1B e -> Forall osc_char b -> osc_end c -> row can rep (e ++ 0x5D :: b ++ [c]) []
| row_esc_final : forall e c, run_of 0x1B e -> final can c -> row can rep (e ++ [c]) []
| row_esc : forall e, run_of 0x1B e -> row can rep e []
| row_char : forall c, c <> 0xD -> c <> 0xC -> c <> 0x1B -> row can rep [c] (rep c).

(** No row matches a longer beginning of the text than [m]. *)
Definition longest (can : bool) (rep : N -> list N) (m text : list N) : Prop :=
  forall m' r' rest', row can rep m' r' -> text = m' ++ rest' -> (length m' <= length m)%nat.

(** The text cut, from left to right, into longest sequences with their
    replacements. *)
Inductive replaced (can : bool) (rep : N -> list N) : list N -> list (list N) -> Prop :=
| replaced_nil : replaced can rep [] []
| replaced_cons : forall m r rest rs, row can rep m r -> longest can rep m (m ++ rest) ->
    replaced can rep rest rs -> replaced can rep (m ++ rest) (r :: rs).
