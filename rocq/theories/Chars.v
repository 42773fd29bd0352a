(** Character-level functions of /repo/internals/src: constants, character
    predicates, the checking table and the replacement table. *)
From Coq Require Import NArith List Bool.
From Verif Require Import Base Ucd Norm TextTables.
Import ListNotations.
Local Open Scope N_scope.

(** /repo/internals/src/unicode.rs:28-72, and characters written as literals. *)
Definition LF : N := 0xA. (** '\n', as in /repo/src/text_input.rs:291 *)
Definition TAB : N := 0x9. (** '\t', as in /repo/internals/src/check.rs:15 *)
Definition CR : N := 0xD. (** '\r', as in /repo/src/text_input.rs:296 *)
Definition SP : N := 0x20. (** ' ', as in /repo/internals/src/replace.rs:74 *)
Definition FF : N := 0xC. (** unicode.rs:29 *)
Definition BEL : N := 0x7. (** unicode.rs:32 *)
Definition CAN : N := 0x18. (** unicode.rs:35 *)
Definition ESC : N := 0x1B. (** unicode.rs:38 *)
Definition SUB : N := 0x1A. (** unicode.rs:41 *)
Definition DEL : N := 0x7F. (** unicode.rs:45 *)
Definition NEL : N := 0x85. (** unicode.rs:48 *)
Definition BOM : N := 0xFEFF. (** unicode.rs:54 *)
Definition WJ : N := 0x2060. (** unicode.rs:57 *)
Definition ZWJ : N := 0x200D. (** unicode.rs:60 *)
Definition REPL : N := 0xFFFD. (** unicode.rs:63 *)
Definition ORC : N := 0xFFFC. (** unicode.rs:66 *)
Definition LS : N := 0x2028. (** unicode.rs:69 *)
Definition PS : N := 0x2029. (** unicode.rs:72 *)

(** /repo/internals/src/unicode.rs:9 *)
Definition MAX_UTF8_SIZE : nat := 4.
(** unicode.rs:12-19 *)
Definition NORMALIZATION_BUFFER_LEN : nat := 2 + 30 + 2.
(** unicode.rs:26 *)
Definition NORMALIZATION_BUFFER_SIZE : nat := MAX_UTF8_SIZE * NORMALIZATION_BUFFER_LEN.

(** char::is_control: General_Category Cc; used in /repo/internals/src/check.rs:15 *)
Definition is_control (c : N) : bool := in_range c 0 0x1F || in_range c 0x7F 0x9F.

(** /repo/internals/src/unicode.rs:76 is_normalization_form_starter and
    /repo/internals/src/text_utils.rs:86 is_starter *)
Definition is_starter (c : N) : bool := (c <=? 0x7F) || (ccc c =? 0).

(** /repo/internals/src/text_utils.rs:485-508 *)
Definition is_spacing_mark_plus (c : N) : bool :=
  (c =? 0xE33) || (c =? 0xEB3)
  || (in_ranges c tbl_gc_spacing_mark && negb (in_ranges c tbl_spacing_mark_exceptions)).

(** /repo/internals/src/text_utils.rs:16-26 *)
Definition is_basic_text_start (c : N) : bool :=
  is_starter c
  && negb (c =? ZWJ)
  && negb (in_ranges c tbl_grapheme_extend_not_cgj)
  && negb (in_ranges c tbl_emoji_modifier)
  && negb (is_spacing_mark_plus c).

(** /repo/internals/src/text_utils.rs:30-38 *)
Definition is_basic_text_end (c : N) : bool :=
  negb (c =? ZWJ)
  && negb (in_ranges c tbl_preceding_repha)
  && negb (in_ranges c tbl_consonant_prefixed)
  && negb (in_ranges c tbl_prepended_concatenation_mark).

(** /repo/internals/src/text_utils.rs:725-730 *)
Definition is_private_use_area (c : N) : bool := in_ranges c tbl_private_use.

(** Noncharacters as listed in check.rs:91-108 and replace.rs:121-138 (in
    both, U+nFFFE..U+nFFFF for n = 0..16 and U+FDD0..U+FDEF). *)
Definition tbl_nonchar : list (N * N) := [
  (0xFFFE,0xFFFF); (0x1FFFE,0x1FFFF); (0x2FFFE,0x2FFFF); (0x3FFFE,0x3FFFF);
  (0x4FFFE,0x4FFFF); (0x5FFFE,0x5FFFF); (0x6FFFE,0x6FFFF); (0x7FFFE,0x7FFFF);
  (0x8FFFE,0x8FFFF); (0x9FFFE,0x9FFFF); (0xAFFFE,0xAFFFF); (0xBFFFE,0xBFFFF);
  (0xCFFFE,0xCFFFF); (0xDFFFE,0xDFFFF); (0xEFFFE,0xEFFFF); (0xFFFFE,0xFFFFF);
  (0x10FFFE,0x10FFFF); (0xFDD0,0xFDEF)].

(** /repo/internals/src/check.rs:117-150, the errors check_basic_text_char and
    the writer can report.  Simplification: the payload of [Replacement] (the
    suggested characters) is dropped, only the offending character is kept. *)
Inductive basic_text_error :=
| EControlCode (c : N)
| EDeprecatedFormatChar (c : N)
| EEscape
| EBidiFormatChar
| EInterlinear
| ELanguageTag
| ELineSeparation
| ENonChar
| EParaSeparation
| EUnneededBOM
| EOutOfBand
| EOmit (c : N)
| EBeyyal
| EUnrecognizedEscape
| EReplacement (no : N).

(** /repo/internals/src/check.rs:16-81, the characters with a replacement. *)
Definition tbl_replacement : list (N * N) := [
  (0x149,0x149); (0x673,0x673); (0xF77,0xF77); (0xF79,0xF79); (0x17A3,0x17A3);
  (0x17A4,0x17A4); (0x2329,0x2329); (0x232A,0x232A); (0x2126,0x2126);
  (0x212A,0x212A); (0x212B,0x212B); (0x2DF5,0x2DF5); (0x111C4,0x111C4);
  (0xFB00,0xFB06); (0x9E4,0x9E4); (0x9E5,0x9E5); (0xA64,0xA64); (0xA65,0xA65);
  (0xAE4,0xAE4); (0xAE5,0xAE5); (0xB64,0xB64); (0xB65,0xB65); (0xBE4,0xBE4);
  (0xBE5,0xBE5); (0xC64,0xC64); (0xC65,0xC65); (0xCE4,0xCE4); (0xCE5,0xCE5);
  (0xD64,0xD64); (0xD65,0xD65); (0x2072,0x2072); (0x2073,0x2073);
  (0x1D455,0x1D455); (0x1D49D,0x1D49D); (0x1D4A0,0x1D4A0); (0x1D4A1,0x1D4A1);
  (0x1D4A3,0x1D4A3); (0x1D4A4,0x1D4A4); (0x1D4A7,0x1D4A7); (0x1D4A8,0x1D4A8);
  (0x1D4AD,0x1D4AD); (0x1D4BA,0x1D4BA); (0x1D4BC,0x1D4BC); (0x1D4C4,0x1D4C4);
  (0x1D506,0x1D506); (0x1D50B,0x1D50B); (0x1D50C,0x1D50C); (0x1D515,0x1D515);
  (0x1D51D,0x1D51D); (0x1D53A,0x1D53A); (0x1D53F,0x1D53F); (0x1D545,0x1D545);
  (0x1D547,0x1D547); (0x1D548,0x1D548); (0x1D549,0x1D549); (0x1D551,0x1D551);
  (0xF900,0xFA0D); (0xFA10,0xFA10); (0xFA12,0xFA12); (0xFA15,0xFA1E);
  (0xFA20,0xFA20); (0xFA22,0xFA22); (0xFA25,0xFA26); (0xFA2A,0xFA6D);
  (0xFA70,0xFAD9); (0x2F800,0x2FA1D)].

(** /repo/internals/src/check.rs:12-113 check_basic_text_char; [None] is
    [Ok(())].  The match arms are tried in order. *)
Definition check_basic_text_char (c : N) : option basic_text_error :=
  if is_control c && negb (c =? LF) && negb (c =? TAB) && negb (c =? ESC) then Some (EControlCode c)
  else if in_ranges c tbl_replacement then Some (EReplacement c)
  else if c =? 0xE0001 then Some ELanguageTag
  else if in_range c 0xFFF9 0xFFFB then Some EInterlinear
  else if (c =? 0x17B4) || (c =? 0x17B5) then Some (EOmit c)
  else if c =? 0x17D8 then Some EBeyyal
  else if in_range c 0x206A 0x206F then Some (EDeprecatedFormatChar c)
  else if c =? 0x2028 then Some ELineSeparation
  else if c =? 0x2029 then Some EParaSeparation
  else if in_range c 0x202A 0x202E || in_range c 0x2066 0x2069 then Some EBidiFormatChar
  else if in_ranges c tbl_nonchar then Some ENonChar
  else if c =? ORC then Some EOutOfBand
  else if c =? BOM then Some EUnneededBOM
  else None.

(** check.rs:12-113: [Ok(())] *)
Definition check_ok (c : N) : bool :=
  match check_basic_text_char c with None => true | Some _ => false end.

(** /repo/internals/src/replace.rs:76-138, everything replaced by U+FFFD. *)
Definition tbl_repl : list (N * N) := [
  (0x0,0x8); (0xB,0xB); (0xD,0xF); (0x10,0x1A); (0x1C,0x1F); (0x7F,0x84);
  (0x86,0x9F); (0x2329,0x232A); (0xFFF9,0xFFFB);
  (0x9E4,0x9E5); (0xA64,0xA65); (0xAE4,0xAE5); (0xB64,0xB65); (0xBE4,0xBE5);
  (0xC64,0xC65); (0xCE4,0xCE5); (0xD64,0xD65); (0x2072,0x2073);
  (0x1D455,0x1D455); (0x1D49D,0x1D49D); (0x1D4A0,0x1D4A1); (0x1D4A3,0x1D4A4);
  (0x1D4A7,0x1D4A8); (0x1D4AD,0x1D4AD); (0x1D4BA,0x1D4BA); (0x1D4BC,0x1D4BC);
  (0x1D4C4,0x1D4C4); (0x1D506,0x1D506); (0x1D50B,0x1D50C); (0x1D515,0x1D515);
  (0x1D51D,0x1D51D); (0x1D53A,0x1D53A); (0x1D53F,0x1D53F); (0x1D545,0x1D545);
  (0x1D547,0x1D549); (0x1D551,0x1D551);
  (0xFFFC,0xFFFC); (0x17B4,0x17B5); (0x17D8,0x17D8); (0x206A,0x206F);
  (0x202A,0x202E); (0x2066,0x2069); (0xE0001,0xE0001)].

(** /repo/internals/src/replace.rs:9-142: the characters pushed to the queue for
    [c].  Match arms in order; the multi-character arms are disjoint from the rest. *)
Definition replace (c : N) : list N :=
  if c =? BOM then [WJ]
  else if c =? 0x149 then [0x2BC; 0x6E]
  else if c =? 0x673 then [0x627; 0x65F]
  else if c =? 0xF77 then [0xFB2; 0xF81]
  else if c =? 0xF79 then [0xFB3; 0xF81]
  else if c =? 0x17A3 then [0x17A2]
  else if c =? 0x17A4 then [0x17A2; 0x17B6]
  else if c =? 0x2DF5 then [0x2DED; 0x2DEE]
  else if c =? 0x111C4 then [0x1118F; 0x11180]
  else if (c =? LS) || (c =? PS) then [SP]
  else if c =? 0xFB00 then [0x66; 0x66]
  else if c =? 0xFB01 then [0x66; 0x69]
  else if c =? 0xFB02 then [0x66; 0x6C]
  else if c =? 0xFB03 then [0x66; 0x66; 0x69]
  else if c =? 0xFB04 then [0x66; 0x66; 0x6C]
  else if c =? 0xFB05 then [0x17F; 0x74]
  else if c =? 0xFB06 then [0x73; 0x74]
  else if (c =? FF) || (c =? NEL) then [SP]
  else if in_ranges c tbl_repl || in_ranges c tbl_nonchar then [REPL]
  else [c].
