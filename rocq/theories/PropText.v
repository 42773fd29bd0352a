(** Properties C03, C12, C13, C14, C15, C40 and the meaning of the two checks.
    Each theorem is an earlier lemma; the examples show that the hypotheses are
    met by concrete text. *)
From Coq Require Import NArith List Bool.
From Verif Require Import Base Ucd Norm Chars TextUtils NormFacts CharFacts DocTable SpecText TextFacts PipelineFacts DocFacts.
Import ListNotations.
Local Open Scope N_scope.

(** is_basic_text_substr and is_basic_text decide the documented definition
    (except the isolation of unassigned characters, see C26). *)
Theorem check_substr_meaning : forall s, is_basic_text_substr s = true <-> substring_ok s.
Proof. exact substr_spec. Qed.
Print Assumptions check_substr_meaning.
Theorem check_text_meaning : forall s, is_basic_text s = true <-> string_ok s.
Proof. exact basic_text_spec. Qed.
Print Assumptions check_text_meaning.
(** "Ä é" + U+34F + combining acute is accepted; A + ring is not. *)
Example check_text_yes : is_basic_text [0xC4; 0x20; 0xE9; 0x34F; 0x301; 0xA] = true.
Proof. vm_compute. reflexivity. Qed.
Example check_text_no : is_basic_text [0x41; 0x30A] = false.
Proof. vm_compute. reflexivity. Qed.

(** C03 *)
Theorem C03_check_is_table : forall c,
  (check_basic_text_char c = None /\ c <> 0x1B) <-> doc_lookup c = None.
Proof. exact check_is_table. Qed.
Print Assumptions C03_check_is_table.
Example C03_check_rejects : check_basic_text_char 0x2028 <> None /\ doc_lookup 0x2028 = Some (Fixed [0x20]).
Proof. split; vm_compute; [discriminate|reflexivity]. Qed.

Theorem C03_replace_keeps_accepted : forall c, doc_lookup c = None -> replace c = [c].
Proof. exact replace_keeps_accepted. Qed.
Print Assumptions C03_replace_keeps_accepted.
Example C03_keeps_example : doc_lookup 0x41 = None /\ replace 0x41 = [0x41].
Proof. split; vm_compute; reflexivity. Qed.

Theorem C03_replace_removes_rejected : forall c, c <> 0x1B ->
  Forall (fun x => doc_lookup x = None) (nfc (cjk_compat_variants (replace c))).
Proof. exact replace_removes_rejected. Qed.
Print Assumptions C03_replace_removes_rejected.
Example C03_removes_example : nfc (cjk_compat_variants (replace 0xF900)) = [0x8C48; 0xFE00]
  /\ nfc (cjk_compat_variants (replace 0x212B)) = [0xC5].
Proof. split; vm_compute; reflexivity. Qed.

(** The replacement is the documented one, for every row of the table (up to
    normalization, which the conversion performs afterwards); CR and ESC are
    handled by the state machine (C04) and not by [replace]. *)
Theorem C03_replacement_as_documented_partial : forall c r, doc_lookup c = Some (Fixed r) ->
  c <> 0xD -> c <> 0x1B -> c <> 0xFB03 -> nfc (replace c) = nfc r.
Proof. exact replacement_as_documented. Qed.
Print Assumptions C03_replacement_as_documented_partial.
Example C03_documented_example : doc_lookup 0xF77 = Some (Fixed [0xFB2; 0xF71; 0xF80]) /\ replace 0xF77 = [0xFB2; 0xF81].
Proof. split; vm_compute; reflexivity. Qed.
(** Row U+FB03 of the documentation says "fff", the code (rightly) "ffi". *)
Theorem C03_replacement_as_documented_refuted : exists c r, doc_lookup c = Some (Fixed r) /\
  c <> 0xD /\ c <> 0x1B /\ nfc (replace c) <> nfc r.
Proof. exact replacement_FB03. Qed.
Print Assumptions C03_replacement_as_documented_refuted.
(** Compatibility ideographs become a unified ideograph and a variation selector. *)
Theorem C03_variants : forall c, doc_lookup c = Some Variant ->
  exists b v, nfc (cjk_compat_variants (replace c)) = [b; v]
    /\ (0xFE00 <= v <= 0xFE0F \/ 0xE0100 <= v <= 0xE01EF) /\ nfc [b] = [b] /\ nfc [c] = [b].
Proof. exact variants_as_documented. Qed.
Print Assumptions C03_variants.

(** C12 *)
Theorem C12_nfc_idempotent : forall s, nfc (nfc s) = nfc s.
Proof. exact nfc_idem. Qed.
Print Assumptions C12_nfc_idempotent.
Theorem C12_conversion_accepted : forall s, is_nfc_stream_safe (nfc (stream_safe s)) = true.
Proof. exact conversion_accepted. Qed.
Print Assumptions C12_conversion_accepted.
Theorem C12_test_exact : forall s, is_nfc_stream_safe s = true <-> nfc s = s /\ stream_safe s = s.
Proof. exact is_nfc_stream_safe_spec. Qed.
Print Assumptions C12_test_exact.
Theorem C12_test_is_fixed_point : forall s, is_nfc_stream_safe s = true <-> nfc (stream_safe s) = s.
Proof. exact test_is_fixed_point. Qed.
Print Assumptions C12_test_is_fixed_point.
Example C12_example : nfc [0x41; 0x323; 0x30A; 0x1100; 0x1161; 0x11A8] = [0x1EA0; 0x30A; 0xAC01]
  /\ nfc [0x41; 0x30A] = [0xC5] /\ is_nfc_stream_safe [0x41; 0x30A] = false.
Proof. repeat split; vm_compute; reflexivity. Qed.

(** C13 *)
Theorem C13_runs_bounded : forall s, is_basic_text_substr s = true ->
  forall a run b, flat_map kd s = a ++ run ++ b -> Forall (fun c => ccc c <> 0) run -> (length run <= 30)%nat.
Proof. exact runs_bounded. Qed.
Print Assumptions C13_runs_bounded.
Example C13_example : is_basic_text_substr (0x61 :: repeat 0x316 30) = true /\ is_basic_text_substr (0x61 :: repeat 0x316 31) = false.
Proof. split; vm_compute; reflexivity. Qed.

(** C14, C15 *)
Theorem C14_slices : forall s b, is_basic_text_substr s = true -> slice_of b s -> is_basic_text_substr b = true.
Proof. exact slices_ok. Qed.
Print Assumptions C14_slices.
Example C14_example : is_basic_text_substr [0x65; 0x323; 0x302; 0xA] = false /\ is_basic_text_substr [0x1EC7; 0x316; 0x301; 0xA] = true
  /\ slice_of [0x316; 0x301] [0x1EC7; 0x316; 0x301; 0xA].
Proof. repeat split; try (vm_compute; reflexivity). exists [0x1EC7], [0xA]. reflexivity. Qed.
Theorem C15_text_slices : forall s b, is_basic_text s = true -> slice_of b s -> is_basic_text_substr b = true.
Proof. exact text_slices_ok. Qed.
Print Assumptions C15_text_slices.

(** C40 *)
Theorem C40_quick_refuted : exists s b, is_basic_text_substr_quick s = Some b /\ is_basic_text_substr s <> b.
Proof. exact quick_substr_refuted. Qed.
Print Assumptions C40_quick_refuted.
(** ... and it is wrong on every valid string and whenever it says true. *)
Theorem C40_quick_wrong_on_valid : forall s, is_basic_text_substr s = true -> is_basic_text_substr_quick s = Some false.
Proof. exact quick_wrong_on_valid. Qed.
Print Assumptions C40_quick_wrong_on_valid.
Theorem C40_quick_true_is_wrong : forall s, is_basic_text_substr_quick s = Some true -> is_basic_text_substr s = false.
Proof. exact quick_true_is_wrong. Qed.
Print Assumptions C40_quick_true_is_wrong.
Example C40_example : is_basic_text_substr_quick [0x61; 0x1A] = Some true /\ is_basic_text_substr [0x61; 0x1A] = false.
Proof. split; vm_compute; reflexivity. Qed.
