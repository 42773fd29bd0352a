(** Generated by tools/gen_doc_table.py from the Sequence Table of
    /repo/docs/BasicText.md; rows with a single scalar value or set of scalar
    values.  Specification, not model. *)
From Coq Require Import NArith List.
Import ListNotations.
Local Open Scope N_scope.

Inductive doc_action := Fixed (r : list N) | Variant.

(** first, last, replacement *)
Definition doc_rows : list (N * N * doc_action) := [
  (0xD, 0xD, Fixed [0xA]);
  (0x0, 0x8, Fixed [0xFFFD]);
  (0xB, 0xB, Fixed [0xFFFD]);
  (0xE, 0x1F, Fixed [0xFFFD]);
  (0x7F, 0x7F, Fixed [0xFFFD]);
  (0x85, 0x85, Fixed [0x20]);
  (0x80, 0x84, Fixed [0xFFFD]);
  (0x86, 0x9F, Fixed [0xFFFD]);
  (0x149, 0x149, Fixed [0x2BC; 0x6E]);
  (0x673, 0x673, Fixed [0x627; 0x65F]);
  (0x9E4, 0x9E4, Fixed [0xFFFD]);
  (0x9E5, 0x9E5, Fixed [0xFFFD]);
  (0xA64, 0xA64, Fixed [0xFFFD]);
  (0xA65, 0xA65, Fixed [0xFFFD]);
  (0xAE4, 0xAE4, Fixed [0xFFFD]);
  (0xAE5, 0xAE5, Fixed [0xFFFD]);
  (0xB64, 0xB64, Fixed [0xFFFD]);
  (0xB65, 0xB65, Fixed [0xFFFD]);
  (0xBE4, 0xBE4, Fixed [0xFFFD]);
  (0xBE5, 0xBE5, Fixed [0xFFFD]);
  (0xC64, 0xC64, Fixed [0xFFFD]);
  (0xC65, 0xC65, Fixed [0xFFFD]);
  (0xCE4, 0xCE4, Fixed [0xFFFD]);
  (0xCE5, 0xCE5, Fixed [0xFFFD]);
  (0xD64, 0xD64, Fixed [0xFFFD]);
  (0xD65, 0xD65, Fixed [0xFFFD]);
  (0xF77, 0xF77, Fixed [0xFB2; 0xF71; 0xF80]);
  (0xF79, 0xF79, Fixed [0xFB3; 0xF71; 0xF80]);
  (0x17A3, 0x17A3, Fixed [0x17A2]);
  (0x17A4, 0x17A4, Fixed [0x17A2; 0x17B6]);
  (0x17B4, 0x17B4, Fixed [0xFFFD]);
  (0x17B5, 0x17B5, Fixed [0xFFFD]);
  (0x17D8, 0x17D8, Fixed [0xFFFD]);
  (0x2028, 0x2028, Fixed [0x20]);
  (0x2029, 0x2029, Fixed [0x20]);
  (0x202A, 0x202A, Fixed [0xFFFD]);
  (0x202B, 0x202B, Fixed [0xFFFD]);
  (0x202C, 0x202C, Fixed [0xFFFD]);
  (0x202D, 0x202D, Fixed [0xFFFD]);
  (0x202E, 0x202E, Fixed [0xFFFD]);
  (0x2066, 0x2066, Fixed [0xFFFD]);
  (0x2067, 0x2067, Fixed [0xFFFD]);
  (0x2068, 0x2068, Fixed [0xFFFD]);
  (0x2069, 0x2069, Fixed [0xFFFD]);
  (0x206A, 0x206F, Fixed [0xFFFD]);
  (0x2072, 0x2072, Fixed [0xFFFD]);
  (0x2073, 0x2073, Fixed [0xFFFD]);
  (0x2126, 0x2126, Fixed [0x3A9]);
  (0x212A, 0x212A, Fixed [0x4B]);
  (0x212B, 0x212B, Fixed [0xC5]);
  (0x2329, 0x2329, Fixed [0xFFFD]);
  (0x232A, 0x232A, Fixed [0xFFFD]);
  (0x2DF5, 0x2DF5, Fixed [0x2DED; 0x2DEE]);
  (0xF900, 0xFA0D, Variant);
  (0xFA10, 0xFA10, Variant);
  (0xFA12, 0xFA12, Variant);
  (0xFA15, 0xFA1E, Variant);
  (0xFA20, 0xFA20, Variant);
  (0xFA22, 0xFA22, Variant);
  (0xFA25, 0xFA26, Variant);
  (0xFA2A, 0xFA6D, Variant);
  (0xFA70, 0xFAD9, Variant);
  (0xFB00, 0xFB00, Fixed [0x66; 0x66]);
  (0xFB01, 0xFB01, Fixed [0x66; 0x69]);
  (0xFB02, 0xFB02, Fixed [0x66; 0x6C]);
  (0xFB03, 0xFB03, Fixed [0x66; 0x66; 0x66]);
  (0xFB04, 0xFB04, Fixed [0x66; 0x66; 0x6C]);
  (0xFB05, 0xFB05, Fixed [0x17F; 0x74]);
  (0xFB06, 0xFB06, Fixed [0x73; 0x74]);
  (0xFDD0, 0xFDEF, Fixed [0xFFFD]);
  (0xFEFF, 0xFEFF, Fixed [0x2060]);
  (0xFFF9, 0xFFFB, Fixed [0xFFFD]);
  (0xFFFC, 0xFFFC, Fixed [0xFFFD]);
  (0xFFFE, 0xFFFE, Fixed [0xFFFD]);
  (0xFFFF, 0xFFFF, Fixed [0xFFFD]);
  (0x1D455, 0x1D455, Fixed [0xFFFD]);
  (0x1D49D, 0x1D49D, Fixed [0xFFFD]);
  (0x1D4A0, 0x1D4A0, Fixed [0xFFFD]);
  (0x1D4A1, 0x1D4A1, Fixed [0xFFFD]);
  (0x1D4A3, 0x1D4A3, Fixed [0xFFFD]);
  (0x1D4A4, 0x1D4A4, Fixed [0xFFFD]);
  (0x1D4A7, 0x1D4A7, Fixed [0xFFFD]);
  (0x1D4A8, 0x1D4A8, Fixed [0xFFFD]);
  (0x1D4AD, 0x1D4AD, Fixed [0xFFFD]);
  (0x1D4BA, 0x1D4BA, Fixed [0xFFFD]);
  (0x1D4BC, 0x1D4BC, Fixed [0xFFFD]);
  (0x1D4C4, 0x1D4C4, Fixed [0xFFFD]);
  (0x1D506, 0x1D506, Fixed [0xFFFD]);
  (0x1D50B, 0x1D50B, Fixed [0xFFFD]);
  (0x1D50C, 0x1D50C, Fixed [0xFFFD]);
  (0x1D515, 0x1D515, Fixed [0xFFFD]);
  (0x1D51D, 0x1D51D, Fixed [0xFFFD]);
  (0x1D53A, 0x1D53A, Fixed [0xFFFD]);
  (0x1D53F, 0x1D53F, Fixed [0xFFFD]);
  (0x1D545, 0x1D545, Fixed [0xFFFD]);
  (0x1D547, 0x1D547, Fixed [0xFFFD]);
  (0x1D548, 0x1D548, Fixed [0xFFFD]);
  (0x1D549, 0x1D549, Fixed [0xFFFD]);
  (0x1D551, 0x1D551, Fixed [0xFFFD]);
  (0x1FFFE, 0x1FFFE, Fixed [0xFFFD]);
  (0x1FFFF, 0x1FFFF, Fixed [0xFFFD]);
  (0x111C4, 0x111C4, Fixed [0x1118F; 0x11180]);
  (0x2F800, 0x2FA1D, Variant);
  (0x2FFFE, 0x2FFFE, Fixed [0xFFFD]);
  (0x2FFFF, 0x2FFFF, Fixed [0xFFFD]);
  (0x3FFFE, 0x3FFFE, Fixed [0xFFFD]);
  (0x3FFFF, 0x3FFFF, Fixed [0xFFFD]);
  (0x4FFFE, 0x4FFFE, Fixed [0xFFFD]);
  (0x4FFFF, 0x4FFFF, Fixed [0xFFFD]);
  (0x5FFFE, 0x5FFFE, Fixed [0xFFFD]);
  (0x5FFFF, 0x5FFFF, Fixed [0xFFFD]);
  (0x6FFFE, 0x6FFFE, Fixed [0xFFFD]);
  (0x6FFFF, 0x6FFFF, Fixed [0xFFFD]);
  (0x7FFFE, 0x7FFFE, Fixed [0xFFFD]);
  (0x7FFFF, 0x7FFFF, Fixed [0xFFFD]);
  (0x8FFFE, 0x8FFFE, Fixed [0xFFFD]);
  (0x8FFFF, 0x8FFFF, Fixed [0xFFFD]);
  (0x9FFFE, 0x9FFFE, Fixed [0xFFFD]);
  (0x9FFFF, 0x9FFFF, Fixed [0xFFFD]);
  (0xAFFFE, 0xAFFFE, Fixed [0xFFFD]);
  (0xAFFFF, 0xAFFFF, Fixed [0xFFFD]);
  (0xBFFFE, 0xBFFFE, Fixed [0xFFFD]);
  (0xBFFFF, 0xBFFFF, Fixed [0xFFFD]);
  (0xCFFFE, 0xCFFFE, Fixed [0xFFFD]);
  (0xCFFFF, 0xCFFFF, Fixed [0xFFFD]);
  (0xDFFFE, 0xDFFFE, Fixed [0xFFFD]);
  (0xDFFFF, 0xDFFFF, Fixed [0xFFFD]);
  (0xE0001, 0xE0001, Fixed [0xFFFD]);
  (0xEFFFE, 0xEFFFE, Fixed [0xFFFD]);
  (0xEFFFF, 0xEFFFF, Fixed [0xFFFD]);
  (0xFFFFE, 0xFFFFE, Fixed [0xFFFD]);
  (0xFFFFF, 0xFFFFF, Fixed [0xFFFD]);
  (0x10FFFE, 0x10FFFE, Fixed [0xFFFD]);
  (0x10FFFF, 0x10FFFF, Fixed [0xFFFD])
].
