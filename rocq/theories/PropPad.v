(** C106: texts formatted with a width, a precision, an alignment and a fill. *)
From Coq Require Import NArith Arith List Bool Lia.
From Verif Require Import Base Ucd Norm Chars TextUtils DocTable SpecText DocFacts TextFacts Utf8 Utf8Facts Output SpecConv SpecWrite SpecString SpecStream SpecMore Fuzz WriteFacts StdIo StdBuf SpecBuf StdFmt SpecFmt StdPad SpecPad PadProps.
Import ListNotations.
Local Open Scope N_scope.

(** `{}` shows the text. *)
Theorem C106_plain : forall s, formatted plain_format s = s.
Proof. exact plain_formatted. Qed.
Print Assumptions C106_plain.

(** In general: what is kept of the text, with the fill around it, up to the width. *)
Theorem C106_shape : forall f s, exists l t r, formatted f s = repeat (fill f) l ++ t ++ repeat (fill f) r /\ kept f s t /\ placed f l r /\
  length (formatted f s) = Nat.max (match width f with Some w => w | None => 0 end) (length t).
Proof. exact formatted_shape. Qed.
Print Assumptions C106_shape.
(** {:*^6.3} of "abcd" *)
Example C106_example_shape : formatted (mkformat 0x2A (Some ACenter) (Some 6%nat) (Some 3%nat)) [0x61; 0x62; 0x63; 0x64] = [0x2A; 0x61; 0x62; 0x63; 0x2A; 0x2A].
Proof. reflexivity. Qed.

(** A valid text, with nothing cut off and an ASCII fill, is a valid text. *)
Theorem C106_valid : forall f s, string_ok s -> ascii_fill f -> kept f s s -> string_ok (formatted f s).
Proof. exact formatted_whole. Qed.
Print Assumptions C106_valid.
Example C106_example_valid : let f := mkformat 0x2E (Some ARight) (Some 4%nat) None in
  string_ok [0xE9; 0x9; 0x1F600] /\ ascii_fill f /\ kept f [0xE9; 0x9; 0x1F600] [0xE9; 0x9; 0x1F600] /\ formatted f [0xE9; 0x9; 0x1F600] = [0x2E; 0xE9; 0x9; 0x1F600].
Proof. cbv zeta. split; [apply basic_text_spec; vm_compute; reflexivity|]. split; [unfold ascii_fill; cbn; lia|]. split; [split; [now exists []|reflexivity]|reflexivity]. Qed.

(** With a precision it is valid exactly if it does not end with a character that may
    not end a text. *)
Theorem C106_valid_exact : forall f s, string_ok s -> ascii_fill f -> string_ok (formatted f s) <-> ends_ok (formatted f s).
Proof. exact formatted_ascii. Qed.
Print Assumptions C106_valid_exact.

(** Any fill that is a valid text: the fill and the text must not join, as Hangul
    letters do. *)
Theorem C106_fill_exact : forall f s, string_ok s -> string_ok [fill f] ->
  string_ok (formatted f s) <-> ends_ok (formatted f s) /\ no_joins (formatted f s).
Proof. exact formatted_exact. Qed.
Print Assumptions C106_fill_exact.

(** Substrings, with the usual fill. *)
Theorem C106_substr : forall f s, substring_ok s -> fill f = 0x20 -> substring_ok (formatted f s).
Proof. exact formatted_substr. Qed.
Print Assumptions C106_substr.
Example C106_example_substr : substring_ok [0x301; 0x200D] /\ formatted (mkformat 0x20 (Some ARight) (Some 3%nat) None) [0x301; 0x200D] = [0x20; 0x301; 0x200D].
Proof. split; [apply substr_spec; vm_compute; reflexivity|reflexivity]. Qed.

(** write!(w, "{:*>8}", text): what is sent is the formatted text, although it is
    converted piece by piece, unless it has unassigned characters on their own. *)
Theorem C106_written : forall f s bom cr r w, string_ok s -> scalars s -> preceded s -> ascii_fill f ->
  write_fmt (new_writer cr false (below bom)) (display f s) = Some (r, w) ->
  r = None /\ emitted (inner w) = (if bom then [0xFEFF] else []) ++ as_sent cr (formatted f s).
Proof. exact formatted_written. Qed.
Print Assumptions C106_written.
Example C106_example_written : let s := [0xE9; 0xA] in let f := mkformat 0x2A (Some ARight) (Some 3%nat) None in
  string_ok s /\ scalars s /\ preceded s /\ ascii_fill f /\ exists w, write_fmt (new_writer false false (below false)) (display f s) = Some (None, w) /\ emitted (inner w) = [0x2A; 0xE9; 0xA].
Proof.
  cbv zeta. split; [apply basic_text_spec; vm_compute; reflexivity|]. split; [repeat constructor|]. split; [apply PipelineFacts.prec_ok_spec; vm_compute; reflexivity|]. split; [unfold ascii_fill; cbn; lia|].
  eexists. split; vm_compute; reflexivity.
Qed.

(** {:.2} of "a", U+200D, "b" ends with U+200D: not a valid text. *)
Theorem C106_cut_refuted : exists f s, string_ok s /\ ascii_fill f /\ width f = None /\ ~ string_ok (formatted f s).
Proof.
  exists (mkformat 0x20 None None (Some 2%nat)), [0x61; 0x200D; 0x62]. split; [apply basic_text_spec; vm_compute; reflexivity|]. split; [unfold ascii_fill; cbn; lia|]. split; [reflexivity|].
  intro K. apply basic_text_spec in K. vm_compute in K. discriminate.
Qed.
Print Assumptions C106_cut_refuted.

(** A Hangul fill joins with the text: {:U+1100>2} of U+1161 is not a valid text. *)
Theorem C106_fill_refuted : exists f s, string_ok s /\ string_ok [fill f] /\ precision f = None /\ ~ string_ok (formatted f s).
Proof.
  exists (mkformat 0x1100 (Some ARight) (Some 2%nat) None), [0x1161]. split; [apply basic_text_spec; vm_compute; reflexivity|]. split; [apply basic_text_spec; vm_compute; reflexivity|]. split; [reflexivity|].
  intro K. apply basic_text_spec in K. vm_compute in K. discriminate.
Qed.
Print Assumptions C106_fill_refuted.

(** A letter before a substring that begins with an accent: {:e>2} of U+301 is not a
    valid substring. *)
Theorem C106_substr_refuted : exists f s, substring_ok s /\ ascii_fill f /\ precision f = None /\ ~ substring_ok (formatted f s).
Proof.
  exists (mkformat 0x65 (Some ARight) (Some 2%nat) None), [0x301]. split; [apply substr_spec; vm_compute; reflexivity|]. split; [unfold ascii_fill; cbn; lia|]. split; [reflexivity|].
  intro K. apply substr_spec in K. vm_compute in K. discriminate.
Qed.
Print Assumptions C106_substr_refuted.
