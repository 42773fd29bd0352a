(** Model of /repo/src/text_string.rs and /repo/src/text_substring.rs (TextString,
    TextStr, TextSubstring, TextSubstr).  A string is the list of its scalar
    values; indices are in bytes of its UTF-8 form.  text_substring.rs repeats the
    text of text_string.rs with [is_basic_text_substr] for [is_basic_text], so the
    functions that differ only in that take the check as an argument. *)
From Coq Require Import NArith List Bool.
From Verif Require Import Base Ucd Norm Chars TextUtils Utf8 Input Output.
Import ListNotations.
Local Open Scope N_scope.

(** str::is_char_boundary *)
Fixpoint char_boundary (s : list N) (i : nat) : bool :=
  match i with
  | O => true
  | _ => match s with
         | [] => false
         | c :: t => Nat.leb (utf8_len c) i && char_boundary t (i - utf8_len c)%nat
         end
  end.

(** &s[..i] and &s[i..]; only used at boundaries *)
Fixpoint take_to (s : list N) (i : nat) : list N :=
  match s with
  | [] => []
  | c :: t => if Nat.leb (utf8_len c) i then c :: take_to t (i - utf8_len c)%nat else []
  end.
(** &s[i..] *)
Fixpoint drop_to (s : list N) (i : nat) : list N :=
  match s with
  | [] => []
  | c :: t => if Nat.leb (utf8_len c) i then drop_to t (i - utf8_len c)%nat else s
  end.

(** text_string.rs:429-431: while !s.is_char_boundary(mid) { mid -= 1 } *)
Fixpoint floor_boundary (s : list N) (mid : nat) : nat :=
  if char_boundary s mid then mid else match mid with O => O | S m => floor_boundary s m end.
(** text_string.rs:434-436: while !s.is_char_boundary(mid) { mid += 1 }; [None] when
    the fuel is used up, see cvu_total in StringFacts.v *)
Fixpoint ceil_boundary (fuel : nat) (s : list N) (mid : nat) : option nat :=
  if char_boundary s mid then Some mid
  else match fuel with O => None | S f => ceil_boundary f s (S mid) end.

(** text_string.rs:420-449 and text_substring.rs:374-403 compute_valid_up_to, the
    loop.  [None] when the fuel is used up. *)
Fixpoint cvu_loop (check : list N -> bool) (s : list N) (fuel begin end_ : nat) : option nat :=
  if Nat.eqb begin end_ then Some begin
  else match fuel with
  | O => None
  | S f =>
      let half := (begin + Nat.div2 (end_ - begin))%nat in
      let mid := floor_boundary s half in
      let next mid := if check (take_to s mid) then cvu_loop check s f mid end_ else cvu_loop check s f begin mid in
      if Nat.eqb mid begin then
        match ceil_boundary 4 s (half + 1) with
        | None => None
        | Some mid => if Nat.eqb mid end_ then Some begin else next mid
        end
      else next mid
  end.
(** text_string.rs:420-449: the function *)
Definition compute_valid_up_to (check : list N -> bool) (s : list N) : option nat :=
  cvu_loop check s (str_len s) 0 (str_len s).

(** Result<_, TextError>; the error carries valid_up_to ([None] if its computation
    does not terminate). *)
Inductive text_result := TOk (t : list N) | TErr (valid_up_to : option nat).

(** text_string.rs:149-174, text_substring.rs:118-143 from_text (TextString and
    TextSubstring): the text goes through a writer on a Vec, which never fails. *)
Definition vec_sink : sink := mksink [] [] false.
(** text_string.rs:149-174: the function *)
Definition string_from_text (check : list N -> bool) (s : list N) : text_result :=
  match and_then (write_str (new_writer false false vec_sink) s) flush with
  | (Some _, _) => TErr (compute_valid_up_to check s)
  | (None, w) => TOk (emitted (abandon_into_inner w))
  end.

(** text_string.rs:600-608, text_substring.rs:495-502 from_text (TextStr and
    TextSubstr) *)
Definition str_from_text (check : list N -> bool) (s : list N) : text_result :=
  if check s then TOk s else TErr (compute_valid_up_to check s).

(** text_string.rs:143, 595, 1249-1256, 1291-1298: from_text_vec, from_text_bytes
    and the conversions of UTF-8 errors *)
Definition from_bytes (from : list N -> text_result) (bs : list N) : text_result :=
  match decode bs with
  | (s, []) => from s
  | (_, rest) => TErr (Some (length bs - length rest)%nat)
  end.

(** text_string.rs:769-776, text_substring.rs:664-671 split_at; [None] is a panic
    (of str::split_at or of unwrap). *)
Definition split_at (check : list N -> bool) (s : list N) (mid : nat) : option (list N * list N) :=
  if char_boundary s mid then
    match str_from_text check (take_to s mid), str_from_text check (drop_to s mid) with
    | TOk a, TOk b => Some (a, b)
    | _, _ => None
    end
  else None.

(** char::is_whitespace: White_Space *)
Definition is_whitespace (c : N) : bool :=
  in_ranges c [(0x9, 0xD); (0x20, 0x20); (0x85, 0x85); (0xA0, 0xA0); (0x1680, 0x1680); (0x2000, 0x200A);
               (0x2028, 0x2029); (0x202F, 0x202F); (0x205F, 0x205F); (0x3000, 0x3000)].

(** text_string.rs:1034-1048, text_substring.rs:930-944 trim_start, trim_end, trim
    (str::trim* without a check) *)
Fixpoint trim_start (s : list N) : list N :=
  match s with
  | [] => []
  | c :: t => if is_whitespace c then trim_start t else s
  end.
(** text_string.rs:1046-1048 *)
Definition trim_end (s : list N) : list N := rev (trim_start (rev s)).
(** text_string.rs:1034-1036 *)
Definition trim (s : list N) : list N := trim_end (trim_start s).

(** text_string.rs:1107-1109, text_substring.rs:1003-1005 repeat *)
Fixpoint repeat_text (s : list N) (n : nat) : list N :=
  match n with O => [] | S m => s ++ repeat_text s m end.

(** text_string.rs:284-292 push_text; 538-554 Add and AddAssign are the same *)
Definition push_text (a s : list N) : list N :=
  match s with
  | c :: rest => if (c =? CGJ) && (match last_opt a with Some l => l =? CGJ | None => false end)
                 then a ++ rest else a ++ s
  | [] => a
  end.
(** text_string.rs:556-590 Extend *)
Definition extend (a : list N) (l : list (list N)) : list N := fold_left push_text l a.

(** text_string.rs:1441-1493, text_substring.rs:1262-1307 Index; [None] is a panic *)
Definition index_to (s : list N) (j : nat) : option (list N) := if char_boundary s j then Some (take_to s j) else None.
(** text_string.rs:1477-1493: Index<RangeFrom<usize>> *)
Definition index_from (s : list N) (i : nat) : option (list N) := if char_boundary s i then Some (drop_to s i) else None.
(** text_string.rs:1441-1457: Index<Range<usize>> *)
Definition index (s : list N) (i j : nat) : option (list N) :=
  if char_boundary s i && char_boundary s j && Nat.leb i j then Some (drop_to (take_to s j) i) else None.

(** text_string.rs:187-209, text_substring.rs:156-178 from_text_lossy, after
    reading; [text] is what read_to_string has read.  [None] is the panic of the
    assertion. *)
Definition lossy_result (v text : list N) : option (list N) :=
  let '(v, text) := match v with
                    | c :: t => if c =? BOM then (t, WJ :: text) else (v, text)
                    | [] => (v, text)
                    end in
  match last_opt v with
  | None => Some text
  | Some c =>
      if (c =? LF) || (c =? CR) then Some text
      else match last_opt text with
           | Some l => if l =? LF then Some (removelast text) else None
           | None => None
           end
  end.

(** String::from_utf8_lossy: the length of the invalid sequence at the front
    (core::str::lossy Utf8Chunks) *)
Definition bad_len (bs : list N) : nat :=
  match bs with
  | [] => 0
  | b0 :: t0 =>
      let second := if b0 =? 0xE0 then (0xA0, 0xBF) else if b0 =? 0xED then (0x80, 0x9F)
                    else if b0 =? 0xF0 then (0x90, 0xBF) else if b0 =? 0xF4 then (0x80, 0x8F) else (0x80, 0xBF) in
      if in_range b0 0xE0 0xEF then
        match t0 with b1 :: _ => if in_range b1 (fst second) (snd second) then 2 else 1 | [] => 1 end
      else if in_range b0 0xF0 0xF4 then
        match t0 with
        | b1 :: t1 => if in_range b1 (fst second) (snd second)
                      then match t1 with b2 :: _ => if is_cont b2 then 3 else 2 | [] => 2 end
                      else 1
        | [] => 1
        end
      else 1
  end.
(** String::from_utf8_lossy: the loop over the chunks *)
Fixpoint utf8_lossy_go (fuel : nat) (bs : list N) : list N :=
  match fuel with
  | O => []
  | S f =>
      match bs with
      | [] => []
      | _ => match decode1 bs with
             | Some (c, t) => c :: utf8_lossy_go f t
             | None => REPL :: utf8_lossy_go f (skipn (bad_len bs) bs)
             end
      end
  end.
(** String::from_utf8_lossy, used in text_string.rs:181 from_text_bytes_lossy *)
Definition utf8_lossy (bs : list N) : list N := utf8_lossy_go (length bs) bs.

(** text_string.rs:1496-1512 default_read_to_text_string, after read_to_string
    has appended [text] to [buf]; [false] is Err(InvalidData), and the buffer keeps
    the text in either case *)
Definition read_to_text_string (buf text : list N) : bool * list N :=
  (opt_all is_basic_text_start (head_opt text), buf ++ text).
