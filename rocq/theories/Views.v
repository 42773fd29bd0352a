(** The views of a text that the string types pass on from str: characters with
    their positions, bytes, UTF-16, ASCII, escapes, matches from the right; and
    what FromTextError carries. *)
From Coq Require Import NArith List Bool.
From Verif Require Import Base Utf8 Strings Search.
Import ListNotations.
Local Open Scope N_scope.

(** text_string.rs:800-802, text_substring.rs:695-697 char_indices; [pos] is the
    position of the first character *)
Fixpoint char_indices_from (pos : nat) (s : list N) : list (nat * N) :=
  match s with
  | [] => []
  | c :: t => (pos, c) :: char_indices_from (pos + utf8_len c) t
  end.
(** text_string.rs:800-802 *)
Definition char_indices (s : list N) : list (nat * N) := char_indices_from 0 s.

(** text_string.rs:822-824, text_substring.rs:717-719 encode_utf16
    (char::encode_utf16) *)
Definition utf16 (c : N) : list N :=
  if c <? 0x10000 then [c] else [0xD800 + (c - 0x10000) / 1024; 0xDC00 + (c - 0x10000) mod 1024].
(** text_string.rs:822-824 *)
Definition encode_utf16 (s : list N) : list N := flat_map utf16 s.

(** text_string.rs:1067-1069, text_substring.rs:963-965 is_ascii (on the bytes) *)
Definition is_ascii (s : list N) : bool := forallb (fun b => b <? 0x80) (encode_all s).

(** text_string.rs:1073-1075, text_substring.rs:969-971 eq_ignore_ascii_case: the
    bytes have the same length, and u8::to_ascii_lowercase makes them equal one by
    one *)
Definition lower_byte (b : N) : N := if (0x41 <=? b) && (b <=? 0x5A) then b + 0x20 else b.
(** <[u8]>::eq_ignore_ascii_case *)
Fixpoint eq_ignore_bytes (a b : list N) : bool :=
  match a, b with
  | [], [] => true
  | x :: a', y :: b' => (lower_byte x =? lower_byte y) && eq_ignore_bytes a' b'
  | _, _ => false
  end.
(** text_string.rs:1073-1075 *)
Definition eq_ignore_ascii_case (s t : list N) : bool := eq_ignore_bytes (encode_all s) (encode_all t).

(** text_string.rs:1128-1130, text_substring.rs:1024-1026 escape_unicode
    (char::escape_unicode): the hexadecimal digits without leading zeros, in
    "\u{" and "}".  Six digits are enough for a character. *)
Fixpoint hex_digits (fuel : nat) (c : N) (acc : list N) : list N :=
  match fuel with
  | O => acc
  | S f => let acc' := c mod 16 :: acc in if c / 16 =? 0 then acc' else hex_digits f (c / 16) acc'
  end.
(** The character of a digit. *)
Definition hex_char (d : N) : N := if d <? 10 then 0x30 + d else 0x57 + d.
(** char::escape_unicode *)
Definition escape_unicode1 (c : N) : list N := [0x5C; 0x75; 0x7B] ++ map hex_char (hex_digits 6 c []) ++ [0x7D].
(** text_string.rs:1128-1130 *)
Definition escape_unicode (s : list N) : list N := flat_map escape_unicode1 s.

(** text_string.rs:1121-1123, text_substring.rs:1017-1019 escape_default
    (char::escape_default) *)
Definition escape_default1 (c : N) : list N :=
  if c =? 0x9 then [0x5C; 0x74]
  else if c =? 0xD then [0x5C; 0x72]
  else if c =? 0xA then [0x5C; 0x6E]
  else if (c =? 0x27) || (c =? 0x22) || (c =? 0x5C) then [0x5C; c]
  else if (0x20 <=? c) && (c <=? 0x7E) then [c]
  else escape_unicode1 c.
(** text_string.rs:1121-1123 *)
Definition escape_default (s : list N) : list N := flat_map escape_default1 s.

(** text_string.rs:1015-1029, text_substring.rs:910-924 rmatch_indices for a pattern
    that is not empty: the search from the right goes on before each match.  Each
    match is shorter than the text, so its length is enough fuel. *)
Fixpoint rmatches_go (fuel : nat) (p s : list N) : list nat :=
  match fuel with
  | O => []
  | S f => match rfind_bytes p s with None => [] | Some i => i :: rmatches_go f p (firstn i s) end
  end.
(** text_string.rs:1015-1029: on the bytes *)
Definition text_rmatch_indices (s p : list N) : list nat :=
  match p with [] => rev (boundaries s 0) | _ => rmatches_go (S (length (encode_all s))) (encode_all p) (encode_all s) end.
(** text_string.rs:971-986, text_substring.rs:866-881 rmatches: the matches themselves *)
Definition text_rmatches (s p : list N) : list (list N) := map (fun i => firstn (length (encode_all p)) (skipn i (encode_all s))) (text_rmatch_indices s p).

(** text_string.rs:143-174, 1270-1298, text_substring.rs:112-143 from_text_vec and
    FromTextError: the error keeps the bytes (as_bytes, into_bytes) besides the
    position (text_error) *)
Inductive vec_result := VOk (t : list N) | VErr (bytes : list N) (valid_up_to : option nat).
(** text_string.rs:143-174: the function *)
Definition from_text_vec (check : list N -> bool) (bs : list N) : vec_result :=
  match decode bs with
  | (s, []) => match string_from_text check s with TOk t => VOk t | TErr n => VErr (encode_all s) n end
  | (s, rest) => VErr bs (Some (length bs - length rest)%nat)
  end.
