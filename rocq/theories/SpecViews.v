(** What the views of a text are. *)
From Coq Require Import NArith List Bool.
From Verif Require Import Base Utf8 SpecSearch.
Import ListNotations.
Local Open Scope N_scope.

(** The text that UTF-16 code units stand for (The Unicode Standard, D91);
    [None] if they are ill-formed. *)
Definition consed (c : N) (r : option (list N)) : option (list N) := match r with Some s => Some (c :: s) | None => None end.
Fixpoint utf16_text (us : list N) : option (list N) :=
  match us with
  | [] => Some []
  | u :: t =>
      if in_range u 0xD800 0xDBFF then
        match t with
        | v :: t' => if in_range v 0xDC00 0xDFFF then consed (0x10000 + 1024 * (u - 0xD800) + (v - 0xDC00)) (utf16_text t') else None
        | [] => None
        end
      else if in_range u 0xDC00 0xDFFF then None
      else consed u (utf16_text t)
  end.

(** Two characters are the same, or the same ASCII letter in two cases. *)
Definition same_letter (a b : N) : Prop :=
  a = b \/ (0x41 <= a <= 0x5A /\ b = a + 0x20) \/ (0x41 <= b <= 0x5A /\ a = b + 0x20).

(** What a string with escapes in the notation of Rust stands for: between
    escapes, after a backslash, after "\u", after "\u{" and some digits. *)
Inductive escape_state := Outside | Backslash | Opening | Digits (n : N).
Fixpoint unescape (st : escape_state) (s : list N) : option (list N) :=
  match s with
  | [] => match st with Outside => Some [] | _ => None end
  | c :: t =>
      match st with
      | Outside => if c =? 0x5C then unescape Backslash t else consed c (unescape Outside t)
      | Backslash =>
          if c =? 0x74 then consed 0x9 (unescape Outside t)
          else if c =? 0x72 then consed 0xD (unescape Outside t)
          else if c =? 0x6E then consed 0xA (unescape Outside t)
          else if (c =? 0x27) || (c =? 0x22) || (c =? 0x5C) then consed c (unescape Outside t)
          else if c =? 0x75 then unescape Opening t
          else if c =? 0x30 then consed 0 (unescape Outside t)
          else None
      | Opening => if c =? 0x7B then unescape (Digits 0) t else None
      | Digits n =>
          if c =? 0x7D then consed n (unescape Outside t)
          else if in_range c 0x30 0x39 then unescape (Digits (16 * n + (c - 0x30))) t
          else if in_range c 0x61 0x66 then unescape (Digits (16 * n + (c - 0x61 + 10))) t
          else None
      end
  end.

(** The matches of [p] in [s], from right to left, without overlap. *)
Inductive rightmost (p : list N) : list N -> list nat -> Prop :=
| no_more_left : forall s, (forall i, ~ occurs_at p s i) -> rightmost p s []
| next_left : forall a b l, (forall i, occurs_at p (a ++ p ++ b) i -> (i <= str_len a)%nat) ->
    rightmost p a l -> rightmost p (a ++ p ++ b) (str_len a :: l).

(** A number in hexadecimal: small letters, no zero in front of other digits. *)
Inductive digit : N -> N -> Prop :=
| decimal_digit : forall v, v < 10 -> digit v (0x30 + v)
| letter_digit : forall v, 10 <= v < 16 -> digit v (0x61 + (v - 10)).
Inductive hexadecimal : N -> list N -> Prop :=
| one_digit : forall v h, digit v h -> hexadecimal v [h]
| more_digits : forall n v h hs, 0 < n -> hexadecimal n hs -> digit v h -> hexadecimal (16 * n + v) (hs ++ [h]).
(** "\u", and the number of the character in braces. *)
Definition by_number (c : N) (e : list N) : Prop := exists hs, hexadecimal c hs /\ e = [0x5C; 0x75; 0x7B] ++ hs ++ [0x7D].
(** The short escapes, printable ASCII as it is, anything else by its number. *)
Definition short_escapes : list (N * list N) :=
  [(0x9, [0x5C; 0x74]); (0xA, [0x5C; 0x6E]); (0xD, [0x5C; 0x72]); (0x22, [0x5C; 0x22]); (0x27, [0x5C; 0x27]); (0x5C, [0x5C; 0x5C])].
Inductive by_default (c : N) (e : list N) : Prop :=
| short_escape : In (c, e) short_escapes -> by_default c e
| as_itself : ~ In c (map fst short_escapes) -> 0x20 <= c <= 0x7E -> e = [c] -> by_default c e
| numbered : ~ In c (map fst short_escapes) -> ~ 0x20 <= c <= 0x7E -> by_number c e -> by_default c e.
