(** UTF-8 as in the Rust standard library (core::str, core::char). *)
From Coq Require Import NArith List Bool.
From Verif Require Import Base.
Import ListNotations.
Local Open Scope N_scope.

(** char::len_utf8 *)
Definition utf8_len (c : N) : nat :=
  (if c <? 0x80 then 1 else if c <? 0x800 then 2 else if c <? 0x10000 then 3 else 4)%nat.

(** char::encode_utf8, used by /repo/src/text_input.rs:398, 462 *)
Definition encode (c : N) : list N :=
  if c <? 0x80 then [c]
  else if c <? 0x800 then [0xC0 + c / 64; 0x80 + c mod 64]
  else if c <? 0x10000 then [0xE0 + c / 4096; 0x80 + (c / 64) mod 64; 0x80 + c mod 64]
  else [0xF0 + c / 262144; 0x80 + (c / 4096) mod 64; 0x80 + (c / 64) mod 64; 0x80 + c mod 64].

(** The bytes of a string. *)
Definition encode_all (s : list N) : list N := flat_map encode s.

(** str::len *)
Fixpoint str_len (s : list N) : nat :=
  match s with [] => 0 | c :: t => utf8_len c + str_len t end%nat.

(** core::str::validations: utf8_is_cont_byte *)
Definition is_cont (b : N) : bool := in_range b 0x80 0xBF.

(** core::str::validations: one character of run_utf8_validation. *)
Definition decode1 (bs : list N) : option (N * list N) :=
  match bs with
  | [] => None
  | b0 :: t0 =>
      if b0 <? 0x80 then Some (b0, t0)
      else if in_range b0 0xC2 0xDF then
        match t0 with
        | b1 :: t1 => if is_cont b1 then Some ((b0 - 0xC0) * 64 + (b1 - 0x80), t1) else None
        | _ => None
        end
      else if in_range b0 0xE0 0xEF then
        match t0 with
        | b1 :: b2 :: t2 =>
            if (if b0 =? 0xE0 then in_range b1 0xA0 0xBF
                else if b0 =? 0xED then in_range b1 0x80 0x9F else is_cont b1)
               && is_cont b2
            then Some ((b0 - 0xE0) * 4096 + (b1 - 0x80) * 64 + (b2 - 0x80), t2) else None
        | _ => None
        end
      else if in_range b0 0xF0 0xF4 then
        match t0 with
        | b1 :: b2 :: b3 :: t3 =>
            if (if b0 =? 0xF0 then in_range b1 0x90 0xBF
                else if b0 =? 0xF4 then in_range b1 0x80 0x8F else is_cont b1)
               && is_cont b2 && is_cont b3
            then Some ((b0 - 0xF0) * 262144 + (b1 - 0x80) * 4096 + (b2 - 0x80) * 64 + (b3 - 0x80), t3)
            else None
        | _ => None
        end
      else None
  end.

(** str::from_utf8: the longest valid prefix, decoded, and the remaining
    bytes.  The fuel is the number of bytes. *)
Fixpoint decode_go (fuel : nat) (bs : list N) : list N * list N :=
  match fuel with
  | O => ([], bs)
  | S f => match decode1 bs with
           | None => ([], bs)
           | Some (c, t) => let '(cs, rest) := decode_go f t in (c :: cs, rest)
           end
  end.
(** str::from_utf8, used in /repo/src/text_output.rs:476 and /repo/src/text_string.rs:596 *)
Definition decode (bs : list N) : list N * list N := decode_go (length bs) bs.

(** str::from_utf8(bs).is_ok() *)
Definition valid_utf8 (bs : list N) : bool := match snd (decode bs) with [] => true | _ => false end.

(** /repo/src/text_input.rs:556-558 is_char_boundary (of a byte) *)
Definition is_char_boundary (b : N) : bool := (b <? 0x80) || (0xC0 <=? b).

(** /repo/src/text_input.rs:539-546 *)
Fixpoint clear_to_char_boundary (bs : list N) : list N :=
  match bs with
  | [] => []
  | b :: t => if is_char_boundary b then bs else 0 :: clear_to_char_boundary t
  end.
