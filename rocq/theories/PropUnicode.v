(** Property C91: normalization is that of the Unicode Standard.  SpecUnicode.v
    states the definitions of the standard over its data, without the model. *)
From Coq Require Import NArith List Bool.
From Verif Require Import Base UcdTables Ucd Norm TextUtils SpecText SpecUnicode UnicodeProps.
Import ListNotations.
Local Open Scope N_scope.

(** Normalization Form C exists, is unique and is what is computed. *)
Theorem C91_nfc : forall s t, to_nfc s t <-> t = nfc s.
Proof. exact to_nfc_eq. Qed.
Print Assumptions C91_nfc.
(** a, dot below, circumflex, then the parts of a Hangul syllable *)
Example C91_nfc_example : to_nfc [0x61; 0x302; 0x323; 0x1112; 0x1161; 0x11AB] [0x1EAD; 0xD55C].
Proof. apply C91_nfc. vm_compute. reflexivity. Qed.
(** Excluded from composition; blocked by a character of the same class. *)
Example C91_excluded_example : to_nfc [0x958] [0x915; 0x93C] /\ to_nfc [0x61; 0x305; 0x301] [0x61; 0x305; 0x301].
Proof. split; apply C91_nfc; vm_compute; reflexivity. Qed.
Theorem C91_nfd : forall s t, to_nfd s t <-> t = nfd s.
Proof. exact to_nfd_eq. Qed.
Print Assumptions C91_nfd.
Example C91_nfd_example : to_nfd [0x1EAD; 0xD55C] [0x61; 0x323; 0x302; 0x1112; 0x1161; 0x11AB].
Proof. apply C91_nfd. vm_compute. reflexivity. Qed.
(** Canonical equivalence is having the same decomposition, and the same NFC. *)
Theorem C91_equivalent : forall s t, equivalent s t <-> nfc s = nfc t.
Proof. exact equivalent_nfc. Qed.
Print Assumptions C91_equivalent.
Example C91_equivalent_example : equivalent [0x212B] [0x41; 0x30A] /\ ~ equivalent [0x41] [0x61].
Proof. split; [|intro H]; [apply C91_equivalent; vm_compute; reflexivity|apply C91_equivalent in H; vm_compute in H; discriminate]. Qed.

(** The Stream-Safe text process. *)
Theorem C91_stream_safe : forall s t, make_safe [] s t <-> t = stream_safe s.
Proof. exact make_safe_eq. Qed.
Print Assumptions C91_stream_safe.
Theorem C91_stream_safe_format : forall s, stream_safe_format s <-> stream_safe s = s.
Proof. exact format_eq. Qed.
Print Assumptions C91_stream_safe_format.
Example C91_stream_safe_example : make_safe [] (0x61 :: repeat 0x301 31) (0x61 :: repeat 0x301 30 ++ [0x34F; 0x301]) /\
  stream_safe_format (0x61 :: repeat 0x301 30) /\ ~ stream_safe_format (0x61 :: repeat 0x301 31).
Proof.
  split; [apply C91_stream_safe; vm_compute; reflexivity|]. split; [apply C91_stream_safe_format; vm_compute; reflexivity|].
  intro H. apply C91_stream_safe_format in H. vm_compute in H. discriminate.
Qed.

(** So the check for valid text asks for text in Normalization Form C and in the
    Stream-Safe Text Format, in the words of the standard. *)
Theorem C91_valid : forall s, is_basic_text_substr s = true <-> to_nfc s s /\ stream_safe_format s /\ Forall allowed s.
Proof. exact substr_unicode. Qed.
Print Assumptions C91_valid.
Example C91_valid_example : is_basic_text_substr [0x1EAD; 0xD55C; 0xA] = true /\ is_basic_text_substr [0x61; 0x323] = false.
Proof. split; vm_compute; reflexivity. Qed.
(** The conversion: isolation and ideographs (C26, C80), then the Stream-Safe
    process, then Normalization Form C. *)
Theorem C91_conversion : forall s t, t = pipeline s <-> exists u, make_safe [] (cjk_compat_variants (isolate_unassigned s)) u /\ to_nfc u t.
Proof. exact pipeline_unicode. Qed.
Print Assumptions C91_conversion.
