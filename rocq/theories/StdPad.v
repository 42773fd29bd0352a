(** Model of the Display of the text types (/repo/src/text_string.rs:1193-1197,
    text_substring.rs:1082-1086), used with formatting parameters.  It delegates to str's
    Display, which is std's Formatter::pad: `{:*>8.3}` and the like.  A character of the
    fill is written by a call of its own. *)
From Coq Require Import NArith Arith List Bool.
From Verif Require Import Base.
Import ListNotations.

Inductive alignment := ALeft | ARight | ACenter.
(** std's Formatter: what stands after the colon. *)
Record format := mkformat { fill : N; align : option alignment; width : option nat; precision : option nat }.
(** `{}` *)
Definition plain_format : format := mkformat 0x20 None None None.

(** Formatter::pad: the precision is a greatest number of characters. *)
Definition cut_text (f : format) (s : list N) : list N :=
  match precision f with Some p => firstn p s | None => s end.
(** Formatter::padding: how many fill characters go before and after; text is aligned to
    the left unless asked otherwise. *)
Definition padding (f : format) (n : nat) : nat * nat :=
  match align f with
  | None | Some ALeft => (0, n)
  | Some ARight => (n, 0)
  | Some ACenter => (Nat.div2 n, Nat.div2 (S n))
  end.
(** The pieces that are written, in order (Formatter::pad, write_str and write_char). *)
Definition display (f : format) (s : list N) : list (list N) :=
  let t := cut_text f s in
  match width f with
  | None => [t]
  | Some w => if Nat.leb w (length t) then [t]
              else let '(l, r) := padding f (w - length t) in
                   repeat [fill f] l ++ t :: repeat [fill f] r
  end.
(** ToString::to_string, format!: the pieces are put together. *)
Definition formatted (f : format) (s : list N) : list N := concat (display f s).
