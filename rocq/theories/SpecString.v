(** Specification of the string types: which pairs of characters join when two
    strings are put together, the documented strict conversion
    (/repo/docs/BasicText.md:203-219 "From Unicode String to Basic Text String,
    Strict"), error positions. *)
From Coq Require Import NArith List Bool.
From Verif Require Import Base Ucd Norm Chars TextUtils SpecText SpecConv SpecRead Utf8 Input Strings.
Import ListNotations.
Local Open Scope N_scope.

(** Hangul composition (The Unicode Standard, 3.12): a leading consonant with a
    vowel, or a syllable without trailing consonant with a trailing consonant. *)
Definition hangul_join (x c : N) : Prop :=
  (0x1100 <= x <= 0x1112 /\ 0x1161 <= c <= 0x1175)
  \/ (0xAC00 <= x <= 0xD7A3 /\ (x - 0xAC00) mod 28 = 0 /\ 0x11A8 <= c <= 0x11C2).

(** the last character of [a] and the first of [b] join *)
Definition joined (a b : list N) : Prop :=
  exists t x c u, a = t ++ [x] /\ b = c :: u /\ hangul_join x c.

(** Position [n] (in bytes) ends a prefix of [s] that satisfies [ok]. *)
Definition valid_position (ok : list N -> Prop) (s : list N) (n : nat) : Prop :=
  exists a b, s = a ++ b /\ str_len a = n /\ ok a.
(** … and no longer one does. *)
Definition longest_position (ok : list N -> Prop) (s : list N) (n : nat) : Prop :=
  valid_position ok s n /\ forall m, valid_position ok s m -> (m <= n)%nat.

(** The documented strict conversion: the conditions on the string, and the
    result. *)
Definition strict_accepts (s : list N) : Prop := starts_ok s /\ ends_ok s /\ Forall allowed s.
Definition strict_result (s t : list N) : Prop := t = nfc (stream_safe (isolated_form false s)).

(** What read_to_string of a reader over the bytes of [v] can give: the bytes
    arrive in pieces, without failures, and the caller reads to the end. *)
Definition reads_as (v text : list N) : Prop :=
  exists script sizes rs j rest, stream_text script = v /\ no_push script /\ no_fail script /\ bom_visible script /\
    reads (new_input false false) script sizes = (rs, j, rest) /\ reached_end rs /\ text = received rs.
(** the results of from_text_lossy ([None] is a panic) *)
Definition lossy (v : list N) (r : option (list N)) : Prop := exists text, reads_as v text /\ r = lossy_result v text.

(** The characters with the property White_Space (PropList.txt). *)
Definition white_space (c : N) : Prop :=
  In c [0x9; 0xA; 0xB; 0xC; 0xD; 0x20; 0x85; 0xA0; 0x1680; 0x2000; 0x2001; 0x2002; 0x2003; 0x2004; 0x2005; 0x2006; 0x2007; 0x2008;
        0x2009; 0x200A; 0x2028; 0x2029; 0x202F; 0x205F; 0x3000].
