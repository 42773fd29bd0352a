(** Precomposed text: characters that each stand for themselves. *)
From Coq Require Import NArith List Bool.
From Verif Require Import Base Ucd Norm Chars SpecText Utf8 Output.
Import ListNotations.
Local Open Scope N_scope.

(** Unicode's private use areas (general category Co). *)
Definition private_use (c : N) : Prop := 0xE000 <= c <= 0xF8FF \/ 0xF0000 <= c <= 0xFFFFD \/ 0x100000 <= c <= 0x10FFFD.

(** A starter with NFC_Quick_Check=Yes that Basic Text allows everywhere: not
    forbidden, assigned or for private use, and allowed at both ends of a text. *)
Record lone (c : N) : Prop := {
  l_starter : ccc c = 0;
  l_yes : qc_nfc c = Yes;
  l_allowed : allowed c;
  l_assigned : is_public_assigned c = true \/ private_use c;
  l_start : is_basic_text_start c = true;
  l_end : is_basic_text_end c = true
}.

(** Some of them, by script. *)
Definition scripts : list (N * N) := [
  (0x9, 0xA); (0x20, 0x7E);               (* ASCII *)
  (0xA0, 0x148); (0x14A, 0x2FF);          (* Latin *)
  (0x370, 0x373); (0x37A, 0x37D); (0x388, 0x38A); (0x38E, 0x3A1); (0x3A3, 0x3FF);   (* Greek *)
  (0x400, 0x482); (0x48A, 0x52F);         (* Cyrillic *)
  (0x531, 0x556); (0x561, 0x586);         (* Armenian *)
  (0x5D0, 0x5EA);                         (* Hebrew *)
  (0x620, 0x64A);                         (* Arabic *)
  (0x10D0, 0x10FA);                       (* Georgian *)
  (0x1E00, 0x1EFF);                       (* Latin with several accents *)
  (0x2010, 0x2027); (0x2200, 0x22FF); (0x2500, 0x25FF);   (* punctuation, operators, boxes *)
  (0x3041, 0x3096); (0x30A1, 0x30FA); (0xFF01, 0xFF9D);   (* kana, full and half width *)
  (0x3400, 0x4DBF); (0x4E00, 0x9FFF); (0x20000, 0x2A6DF); (* unified ideographs *)
  (0xAC00, 0xD7A3);                       (* Hangul syllables *)
  (0x1F300, 0x1F3FA); (0x1F400, 0x1F64F); (* pictographs *)
  (0xE000, 0xF8FF); (0xF0000, 0xFFFFD); (0x100000, 0x10FFFD)  (* private use *)
].

(** Writes of such text, also of its bytes, and flushes; what they are asked to write. *)
Inductive lop := LWrite (s : list N) | LBytes (s : list N) | LText (s : list N) | LFlush.
Definition lop_op (o : lop) : wop :=
  match o with LWrite s => OpWriteStr s | LBytes s => OpWrite (encode_all s) | LText s => OpWriteText s | LFlush => OpFlush end.
Definition lop_ok (o : lop) : Prop :=
  match o with LWrite s | LBytes s => Forall lone s | LText s => s <> [] /\ Forall lone s | LFlush => True end.
Definition lop_given (o : lop) : list N := match o with LWrite s | LBytes s | LText s => s | LFlush => [] end.
