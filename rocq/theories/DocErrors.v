(** Generated by tools/gen_doc_errors.py from the Error column of the Sequence
    Table of /repo/docs/BasicText.md; rows with a single scalar value or set of
    scalar values.  Specification, not model. *)
From Coq Require Import NArith List String.
Import ListNotations.
Local Open Scope N_scope.

(** The text of a message with "_" for the scalar values it names, and these. *)
Inductive message := Message (text : string) (args : list (list N)).

Local Open Scope string_scope.
(** first, last, message *)
Definition doc_error_rows : list (N * N * message) := [
  (0xD, 0xD, Message "Use _ to terminate a line" [[0xA]]);
  (0xC, 0xC, Message "Control code not valid in text" []);
  (0x1B, 0x1B, Message "Escape code not valid in text" []);
  (0x0, 0x8, Message "Control code not valid in text" []);
  (0xB, 0xB, Message "Control code not valid in text" []);
  (0xE, 0x1F, Message "Control code not valid in text" []);
  (0x7F, 0x7F, Message "Control code not valid in text" []);
  (0x85, 0x85, Message "Control code not valid in text" []);
  (0x80, 0x84, Message "Control code not valid in text" []);
  (0x86, 0x9F, Message "Control code not valid in text" []);
  (0x149, 0x149, Message "Use _ instead of _" [[0x2BC; 0x6E]; [0x149]]);
  (0x673, 0x673, Message "Use _ instead of _" [[0x627; 0x65F]; [0x673]]);
  (0x9E4, 0x9E4, Message "Use _ instead of _" [[0x964]; [0x9E4]]);
  (0x9E5, 0x9E5, Message "Use _ instead of _" [[0x965]; [0x9E5]]);
  (0xA64, 0xA64, Message "Use _ instead of _" [[0x964]; [0xA64]]);
  (0xA65, 0xA65, Message "Use _ instead of _" [[0x965]; [0xA65]]);
  (0xAE4, 0xAE4, Message "Use _ instead of _" [[0x964]; [0xAE4]]);
  (0xAE5, 0xAE5, Message "Use _ instead of _" [[0x965]; [0xAE5]]);
  (0xB64, 0xB64, Message "Use _ instead of _" [[0x964]; [0xB64]]);
  (0xB65, 0xB65, Message "Use _ instead of _" [[0x965]; [0xB65]]);
  (0xBE4, 0xBE4, Message "Use _ instead of _" [[0x964]; [0xBE4]]);
  (0xBE5, 0xBE5, Message "Use _ instead of _" [[0x965]; [0xBE5]]);
  (0xC64, 0xC64, Message "Use _ instead of _" [[0x964]; [0xC64]]);
  (0xC65, 0xC65, Message "Use _ instead of _" [[0x965]; [0xC65]]);
  (0xCE4, 0xCE4, Message "Use _ instead of _" [[0x964]; [0xCE4]]);
  (0xCE5, 0xCE5, Message "Use _ instead of _" [[0x965]; [0xCE5]]);
  (0xD64, 0xD64, Message "Use _ instead of _" [[0x964]; [0xD64]]);
  (0xD65, 0xD65, Message "Use _ instead of _" [[0x965]; [0xD65]]);
  (0xF77, 0xF77, Message "Use _ instead of _" [[0xFB2; 0xF71; 0xF80]; [0xF77]]);
  (0xF79, 0xF79, Message "Use _ instead of _" [[0xFB3; 0xF71; 0xF80]; [0xF79]]);
  (0x17A3, 0x17A3, Message "Use _ instead of _" [[0x17A2]; [0x17A3]]);
  (0x17A4, 0x17A4, Message "Use _ instead of _" [[0x17A2; 0x17B6]; [0x17A4]]);
  (0x17B4, 0x17B4, Message "Omit _" [[0x17B4]]);
  (0x17B5, 0x17B5, Message "Omit _" [[0x17B5]]);
  (0x17D8, 0x17D8, Message "Spell beyyal with normal letters" []);
  (0x2028, 0x2028, Message "Line separation is a rich-text function" []);
  (0x2029, 0x2029, Message "Paragraph separation is a rich-text function" []);
  (0x202A, 0x202A, Message "Explicit Bidirectional Formatting Characters are unsupported" []);
  (0x202B, 0x202B, Message "Explicit Bidirectional Formatting Characters are unsupported" []);
  (0x202C, 0x202C, Message "Explicit Bidirectional Formatting Characters are unsupported" []);
  (0x202D, 0x202D, Message "Explicit Bidirectional Formatting Characters are unsupported" []);
  (0x202E, 0x202E, Message "Explicit Bidirectional Formatting Characters are unsupported" []);
  (0x2066, 0x2066, Message "Explicit Bidirectional Formatting Characters are unsupported" []);
  (0x2067, 0x2067, Message "Explicit Bidirectional Formatting Characters are unsupported" []);
  (0x2068, 0x2068, Message "Explicit Bidirectional Formatting Characters are unsupported" []);
  (0x2069, 0x2069, Message "Explicit Bidirectional Formatting Characters are unsupported" []);
  (0x206A, 0x206F, Message "Deprecated Format Characters are deprecated" []);
  (0x2072, 0x2072, Message "Use _ instead of _" [[0xB2]; [0x2072]]);
  (0x2073, 0x2073, Message "Use _ instead of _" [[0xB3]; [0x2073]]);
  (0x2126, 0x2126, Message "Use _ instead of _" [[0x3A9]; [0x2126]]);
  (0x212A, 0x212A, Message "Use _ instead of _" [[0x4B]; [0x212A]]);
  (0x212B, 0x212B, Message "Use _ instead of _" [[0xC5]; [0x212B]]);
  (0x2329, 0x2329, Message "Use _ instead of _" [[0x27E8]; [0x2329]]);
  (0x232A, 0x232A, Message "Use _ instead of _" [[0x27E9]; [0x232A]]);
  (0x2DF5, 0x2DF5, Message "Use _ instead of _" [[0x2DED; 0x2DEE]; [0x2DF5]]);
  (0xF900, 0xFA0D, Message "Use Standardized Variants instead of CJK Compatibility Ideographs" []);
  (0xFA10, 0xFA10, Message "Use Standardized Variants instead of CJK Compatibility Ideographs" []);
  (0xFA12, 0xFA12, Message "Use Standardized Variants instead of CJK Compatibility Ideographs" []);
  (0xFA15, 0xFA1E, Message "Use Standardized Variants instead of CJK Compatibility Ideographs" []);
  (0xFA20, 0xFA20, Message "Use Standardized Variants instead of CJK Compatibility Ideographs" []);
  (0xFA22, 0xFA22, Message "Use Standardized Variants instead of CJK Compatibility Ideographs" []);
  (0xFA25, 0xFA26, Message "Use Standardized Variants instead of CJK Compatibility Ideographs" []);
  (0xFA2A, 0xFA6D, Message "Use Standardized Variants instead of CJK Compatibility Ideographs" []);
  (0xFA70, 0xFAD9, Message "Use Standardized Variants instead of CJK Compatibility Ideographs" []);
  (0xFB00, 0xFB00, Message "Use _ instead of _" [[0x66; 0x66]; [0xFB00]]);
  (0xFB01, 0xFB01, Message "Use _ instead of _" [[0x66; 0x69]; [0xFB01]]);
  (0xFB02, 0xFB02, Message "Use _ instead of _" [[0x66; 0x6C]; [0xFB02]]);
  (0xFB03, 0xFB03, Message "Use _ instead of _" [[0x66; 0x66; 0x69]; [0xFB03]]);
  (0xFB04, 0xFB04, Message "Use _ instead of _" [[0x66; 0x66; 0x6C]; [0xFB04]]);
  (0xFB05, 0xFB05, Message "Use _ instead of _" [[0x17F; 0x74]; [0xFB05]]);
  (0xFB06, 0xFB06, Message "Use _ instead of _" [[0x73; 0x74]; [0xFB06]]);
  (0xFDD0, 0xFDEF, Message "Noncharacters are intended for internal use only" []);
  (0xFEFF, 0xFEFF, Message "_ is not necessary in Basic Text" [[0xFEFF]]);
  (0xFFF9, 0xFFFB, Message "Interlinear Annotations depend on out-of-band information" []);
  (0xFFFC, 0xFFFC, Message "_ depends on out-of-band information" [[0xFFFC]]);
  (0xFFFE, 0xFFFE, Message "Noncharacters are intended for internal use only" []);
  (0xFFFF, 0xFFFF, Message "Noncharacters are intended for internal use only" []);
  (0x1D455, 0x1D455, Message "Use _ instead of _" [[0x210E]; [0x1D455]]);
  (0x1D49D, 0x1D49D, Message "Use _ instead of _" [[0x212C]; [0x1D49D]]);
  (0x1D4A0, 0x1D4A0, Message "Use _ instead of _" [[0x2130]; [0x1D4A0]]);
  (0x1D4A1, 0x1D4A1, Message "Use _ instead of _" [[0x2131]; [0x1D4A1]]);
  (0x1D4A3, 0x1D4A3, Message "Use _ instead of _" [[0x210B]; [0x1D4A3]]);
  (0x1D4A4, 0x1D4A4, Message "Use _ instead of _" [[0x2110]; [0x1D4A4]]);
  (0x1D4A7, 0x1D4A7, Message "Use _ instead of _" [[0x2112]; [0x1D4A7]]);
  (0x1D4A8, 0x1D4A8, Message "Use _ instead of _" [[0x2133]; [0x1D4A8]]);
  (0x1D4AD, 0x1D4AD, Message "Use _ instead of _" [[0x211B]; [0x1D4AD]]);
  (0x1D4BA, 0x1D4BA, Message "Use _ instead of _" [[0x212F]; [0x1D4BA]]);
  (0x1D4BC, 0x1D4BC, Message "Use _ instead of _" [[0x210A]; [0x1D4BC]]);
  (0x1D4C4, 0x1D4C4, Message "Use _ instead of _" [[0x2134]; [0x1D4C4]]);
  (0x1D506, 0x1D506, Message "Use _ instead of _" [[0x212D]; [0x1D506]]);
  (0x1D50B, 0x1D50B, Message "Use _ instead of _" [[0x210C]; [0x1D50B]]);
  (0x1D50C, 0x1D50C, Message "Use _ instead of _" [[0x2111]; [0x1D50C]]);
  (0x1D515, 0x1D515, Message "Use _ instead of _" [[0x211C]; [0x1D515]]);
  (0x1D51D, 0x1D51D, Message "Use _ instead of _" [[0x2128]; [0x1D51D]]);
  (0x1D53A, 0x1D53A, Message "Use _ instead of _" [[0x2102]; [0x1D53A]]);
  (0x1D53F, 0x1D53F, Message "Use _ instead of _" [[0x210D]; [0x1D53F]]);
  (0x1D545, 0x1D545, Message "Use _ instead of _" [[0x2115]; [0x1D545]]);
  (0x1D547, 0x1D547, Message "Use _ instead of _" [[0x2119]; [0x1D547]]);
  (0x1D548, 0x1D548, Message "Use _ instead of _" [[0x211A]; [0x1D548]]);
  (0x1D549, 0x1D549, Message "Use _ instead of _" [[0x211D]; [0x1D549]]);
  (0x1D551, 0x1D551, Message "Use _ instead of _" [[0x2124]; [0x1D551]]);
  (0x1FFFE, 0x1FFFE, Message "Noncharacters are intended for internal use only" []);
  (0x1FFFF, 0x1FFFF, Message "Noncharacters are intended for internal use only" []);
  (0x111C4, 0x111C4, Message "Use _ instead of _" [[0x1118F; 0x11180]; [0x111C4]]);
  (0x2F800, 0x2FA1D, Message "Use Standardized Variants instead of CJK Compatibility Ideographs" []);
  (0x2FFFE, 0x2FFFE, Message "Noncharacters are intended for internal use only" []);
  (0x2FFFF, 0x2FFFF, Message "Noncharacters are intended for internal use only" []);
  (0x3FFFE, 0x3FFFE, Message "Noncharacters are intended for internal use only" []);
  (0x3FFFF, 0x3FFFF, Message "Noncharacters are intended for internal use only" []);
  (0x4FFFE, 0x4FFFE, Message "Noncharacters are intended for internal use only" []);
  (0x4FFFF, 0x4FFFF, Message "Noncharacters are intended for internal use only" []);
  (0x5FFFE, 0x5FFFE, Message "Noncharacters are intended for internal use only" []);
  (0x5FFFF, 0x5FFFF, Message "Noncharacters are intended for internal use only" []);
  (0x6FFFE, 0x6FFFE, Message "Noncharacters are intended for internal use only" []);
  (0x6FFFF, 0x6FFFF, Message "Noncharacters are intended for internal use only" []);
  (0x7FFFE, 0x7FFFE, Message "Noncharacters are intended for internal use only" []);
  (0x7FFFF, 0x7FFFF, Message "Noncharacters are intended for internal use only" []);
  (0x8FFFE, 0x8FFFE, Message "Noncharacters are intended for internal use only" []);
  (0x8FFFF, 0x8FFFF, Message "Noncharacters are intended for internal use only" []);
  (0x9FFFE, 0x9FFFE, Message "Noncharacters are intended for internal use only" []);
  (0x9FFFF, 0x9FFFF, Message "Noncharacters are intended for internal use only" []);
  (0xAFFFE, 0xAFFFE, Message "Noncharacters are intended for internal use only" []);
  (0xAFFFF, 0xAFFFF, Message "Noncharacters are intended for internal use only" []);
  (0xBFFFE, 0xBFFFE, Message "Noncharacters are intended for internal use only" []);
  (0xBFFFF, 0xBFFFF, Message "Noncharacters are intended for internal use only" []);
  (0xCFFFE, 0xCFFFE, Message "Noncharacters are intended for internal use only" []);
  (0xCFFFF, 0xCFFFF, Message "Noncharacters are intended for internal use only" []);
  (0xDFFFE, 0xDFFFE, Message "Noncharacters are intended for internal use only" []);
  (0xDFFFF, 0xDFFFF, Message "Noncharacters are intended for internal use only" []);
  (0xE0001, 0xE0001, Message "Language tagging is a deprecated mechanism" []);
  (0xEFFFE, 0xEFFFE, Message "Noncharacters are intended for internal use only" []);
  (0xEFFFF, 0xEFFFF, Message "Noncharacters are intended for internal use only" []);
  (0xFFFFE, 0xFFFFE, Message "Noncharacters are intended for internal use only" []);
  (0xFFFFF, 0xFFFFF, Message "Noncharacters are intended for internal use only" []);
  (0x10FFFE, 0x10FFFE, Message "Noncharacters are intended for internal use only" []);
  (0x10FFFF, 0x10FFFF, Message "Noncharacters are intended for internal use only" [])
].
