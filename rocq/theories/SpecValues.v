(** The values that a program can make with the string types: every value of type
    TextString or TextStr, and of type TextSubstring or TextSubstr, comes from
    operations that are not [unsafe] applied to earlier values. *)
From Coq Require Import NArith List Bool.
From Verif Require Import Base Ucd Chars TextUtils SpecText Utf8 Input Strings SpecRead SpecString Lines.
Import ListNotations.
Local Open Scope N_scope.

(** Restrictions on such a program: which texts come in from outside, which texts
    are put together, what may be left by trimming, which substrings are repeated. *)
Record rules := {
  source : list N -> Prop;
  may_join : list N -> list N -> Prop;
  may_trim : list N -> Prop;
  may_repeat : list N -> Prop
}.
Definition anything : rules := {| source _ := True; may_join _ _ := True; may_trim _ := True; may_repeat _ := True |}.

Inductive str_value (r : rules) : list N -> Prop :=
(* new, clear, default *)
| sv_new : str_value r []
(* TextString::from_text, TextStr::from_text, from_text_lossy, and the same from bytes *)
| sv_from_text : forall s t, string_from_text is_basic_text s = TOk t -> source r t -> str_value r t
| sv_from_str : forall s t, str_from_text is_basic_text s = TOk t -> source r t -> str_value r t
| sv_lossy : forall v t, lossy v (Some t) -> source r t -> str_value r t
(* push_text, +, += and, one by one, extend *)
| sv_push : forall a b, str_value r a -> str_value r b -> may_join r a b -> str_value r (push_text a b)
| sv_repeat : forall a n, str_value r a -> may_join r a a -> str_value r (repeat_text a n)
| sv_trim_start : forall a, str_value r a -> may_trim r (trim_start a) -> str_value r (trim_start a)
| sv_trim_end : forall a, str_value r a -> may_trim r (trim_end a) -> str_value r (trim_end a)
| sv_trim : forall a, str_value r a -> may_trim r (trim a) -> str_value r (trim a)
| sv_split : forall a mid u v w, str_value r a -> split_at is_basic_text a mid = Some (u, v) -> w = u \/ w = v -> str_value r w
(* read_to_text_string into a TextString *)
| sv_read : forall a v text, str_value r a -> reads_as v text -> source r text -> may_join r a text -> str_value r (snd (read_to_text_string a text))
(* read_text_line, text_lines, text_lines_lossy *)
| sv_line : forall a bytes n t rest, str_value r a -> read_text_line a bytes = (LOk n, t, rest) -> source r t -> str_value r t
| sv_lines : forall debug bytes its t, text_lines debug bytes = Some its -> In (Line t) its -> source r t -> str_value r t
| sv_lines_lossy : forall debug conv bytes its t, (forall v, lossy v (conv v)) -> text_lines_lossy debug conv bytes = Some its ->
    In (Line t) its -> source r t -> str_value r t.

Inductive sub_value (r : rules) : list N -> Prop :=
(* As a substring; TextSubstr::from_text_lossy makes no other values *)
| su_str : forall a, str_value r a -> sub_value r a
| su_from_text : forall s t, string_from_text is_basic_text_substr s = TOk t -> source r t -> sub_value r t
| su_from_str : forall s t, str_from_text is_basic_text_substr s = TOk t -> source r t -> sub_value r t
(* s[i..j], s[..j], s[i..] of all four types *)
| su_index : forall a i j u, sub_value r a -> index a i j = Some u -> sub_value r u
| su_index_to : forall a j u, sub_value r a -> index_to a j = Some u -> sub_value r u
| su_index_from : forall a i u, sub_value r a -> index_from a i = Some u -> sub_value r u
| su_trim_start : forall a, sub_value r a -> sub_value r (trim_start a)
| su_trim_end : forall a, sub_value r a -> sub_value r (trim_end a)
| su_trim : forall a, sub_value r a -> sub_value r (trim a)
| su_split : forall a mid u v w, sub_value r a -> split_at is_basic_text_substr a mid = Some (u, v) -> w = u \/ w = v -> sub_value r w
| su_repeat : forall a n, sub_value r a -> may_repeat r a -> sub_value r (repeat_text a n).

(** A program that checks before the operations that do not. *)
Definition checked : rules := {|
  source _ := True;
  may_join a b := ~ joined a b;
  may_trim t := starts_ok t /\ ends_ok t;
  may_repeat s := starts_ok s /\ ~ joined s s
|}.

(** Texts without vowel and trailing Hangul jamos in which nothing is attached to
    white space: after white space comes a character that may begin a text, before
    it one that may end a text. *)
Definition vowel_or_trailing (c : N) : Prop := 0x1161 <= c <= 0x1175 \/ 0x11A8 <= c <= 0x11C2.
Definition loose (s : list N) : Prop :=
  Forall (fun c => ~ vowel_or_trailing c) s /\
  forall a x y b, s = a ++ x :: y :: b ->
    (white_space x -> is_basic_text_start y = true) /\ (white_space y -> is_basic_text_end x = true).
(** A program that takes in only texts in [src], and does not check. *)
Definition given (src : list N -> Prop) (rep : list N -> Prop) : rules :=
  {| source := src; may_join _ _ := True; may_trim _ := True; may_repeat := rep |}.
