(** Comparison, search and lines: C64 to C66. *)
From Coq Require Import NArith List Bool Lia.
From Verif Require Import Base Ucd Norm Chars TextUtils SpecText TextFacts Utf8 Strings JoinProps CanonProps Search SpecSearch SearchProps SpecUnicode UnicodeProps.
Import ListNotations.
Local Open Scope N_scope.

(** ** C64 *)
(** Comparing the UTF-8 bytes is comparing the characters. *)
Theorem C64_order : forall a b, scalars a -> scalars b ->
  (text_cmp a b = Lt <-> before a b) /\ (text_cmp a b = Eq <-> a = b) /\ (text_cmp a b = Gt <-> before b a).
Proof. exact text_cmp_spec. Qed.
Print Assumptions C64_order.
Theorem C64_transitive : forall a b c, text_cmp a b <> Gt -> text_cmp b c <> Gt -> text_cmp a c <> Gt.
Proof. exact text_cmp_trans. Qed.
Print Assumptions C64_transitive.
Theorem C64_equal : forall a b, scalars a -> scalars b -> text_eq a b = true <-> a = b.
Proof. exact text_eq_spec. Qed.
Print Assumptions C64_equal.
(** Texts are equal exactly if they are canonically equivalent (as the Unicode
    Standard defines it, SpecUnicode.v). *)
Theorem C64_canonical : forall a b, scalars a -> scalars b -> substring_ok a -> substring_ok b -> text_eq a b = true <-> equivalent a b.
Proof.
  intros a b SA SB (NA & _) (NB & _). rewrite text_eq_spec, equivalent_eq by assumption. split; [now intros ->|]. now apply canonical_eq.
Qed.
Print Assumptions C64_canonical.
(** Non-vacuity: U+FFFD is before U+10000, unlike in UTF-16. *)
Example C64_example : before [0x61; 0xFFFD] [0x61; 0x10000] /\ text_cmp [0x61; 0xFFFD] [0x61; 0x10000] = Lt /\ text_cmp [0x62] [0x61; 0x62] = Gt /\ text_cmp [0x61] [0x61; 0x62] = Lt.
Proof. split; [|repeat split; vm_compute; reflexivity]. right. exists [0x61], 0xFFFD, 0x10000, [], []. repeat split. Qed.

(** ** C65 *)
Theorem C65_find : forall s p, scalars s -> scalars p ->
  (forall i, text_find s p = Some i <-> occurs_at p s i /\ forall j, occurs_at p s j -> (i <= j)%nat) /\
  (text_find s p = None <-> forall i, ~ occurs_at p s i).
Proof. intros s p SS SP. split; [intro i; now apply text_find_spec|now apply text_find_none]. Qed.
Print Assumptions C65_find.
Theorem C65_rfind : forall s p, scalars s -> scalars p ->
  (forall i, text_rfind s p = Some i <-> occurs_at p s i /\ forall j, occurs_at p s j -> (j <= i)%nat) /\
  (text_rfind s p = None <-> forall i, ~ occurs_at p s i).
Proof. intros s p SS SP. split; [intro i; now apply text_rfind_spec|now apply text_rfind_none]. Qed.
Print Assumptions C65_rfind.
Theorem C65_tests : forall s p, scalars s -> scalars p ->
  (text_contains s p = true <-> exists a b, s = a ++ p ++ b) /\
  (text_starts_with s p = true <-> exists b, s = p ++ b) /\
  (text_ends_with s p = true <-> exists a, s = a ++ p).
Proof. intros s p SS SP. split; [now apply text_contains_spec|]. split; [now apply text_starts_with_spec|now apply text_ends_with_spec]. Qed.
Print Assumptions C65_tests.
(** match_indices gives the leftmost matches that do not overlap, and nothing else is that. *)
Theorem C65_matches : forall s p l, scalars s -> scalars p -> p <> [] -> text_match_indices s p = l <-> leftmost p s 0 l.
Proof.
  intros s p l SS SP NE. pose proof (match_indices_spec s p SS SP NE) as H. split; [now intros <-|]. intro H2. exact (leftmost_unique _ _ _ _ _ H H2).
Qed.
Print Assumptions C65_matches.
(** The text can be sliced around a match, and the slices are valid. *)
Theorem C65_slices : forall s p i, substring_ok s -> scalars s -> scalars p -> text_find s p = Some i \/ text_rfind s p = Some i ->
  exists a b, s = a ++ p ++ b /\ index_to s i = Some a /\ index s i (i + str_len p) = Some p /\ index_from s (i + str_len p) = Some b /\
    substring_ok a /\ substring_ok p /\ substring_ok b.
Proof.
  intros s p i OK SS SP H. destruct (found_slices s p i SS SP H) as (a & b & E & A & B & P). destruct (found_valid s p i OK SS SP H) as (a' & b' & A' & B' & V).
  rewrite A in A'. rewrite B in B'. injection A' as <-. injection B' as <-. exists a, b. tauto.
Qed.
Print Assumptions C65_slices.
Example C65_example :
  let s := [0xE9; 0x61; 0x1F600; 0x61; 0x61; 0x61] in
  text_find s [0x61] = Some 2%nat /\ text_rfind s [0x61; 0x61] = Some 8%nat /\ text_find s [0x62] = None /\ text_match_indices s [0x61; 0x61] = [7%nat] /\
  text_match_indices s [0x61] = [2; 7; 8; 9]%nat /\ text_starts_with s [0xE9] = true /\ text_ends_with s [0xE9] = false.
Proof. vm_compute. repeat split; reflexivity. Qed.
Example C65_overlap : leftmost [0x61; 0x61] [0xE9; 0x61; 0x61; 0x61] 0 [2%nat].
Proof. apply C65_matches; [repeat constructor|repeat constructor|discriminate|]. vm_compute. reflexivity. Qed.

(** ** C66 *)
Theorem C66_lines : forall s ls, ~ In CR s -> str_lines s = ls <-> lines_of s ls.
Proof. exact str_lines_spec. Qed.
Print Assumptions C66_lines.
Theorem C66_valid_partial : forall s, substring_ok s -> lines_of s (str_lines s) /\ Forall substring_ok (str_lines s) /\
  forall l, In l (str_lines s) -> string_ok l <-> starts_ok l /\ ends_ok l.
Proof. exact lines_valid. Qed.
Print Assumptions C66_valid_partial.
(** A line of a valid TextStr need not be one: it may begin with a combining character. *)
Theorem C66_line_refuted : exists s l, string_ok s /\ In l (str_lines s) /\ ~ string_ok l.
Proof.
  exists [0x61; 0xA; 0x301; 0x62; 0xA], [0x301; 0x62]. split; [apply basic_text_spec; vm_compute; reflexivity|].
  split; [vm_compute; auto|]. intro H. apply basic_text_spec in H. vm_compute in H. discriminate.
Qed.
Print Assumptions C66_line_refuted.
Example C66_example : substring_ok [0x61; 0xA; 0xA; 0x62] /\ str_lines [0x61; 0xA; 0xA; 0x62] = [[0x61]; []; [0x62]] /\ str_lines [0xA] = [[]] /\ str_lines [] = [] /\
  str_lines [0x61; 0xD; 0xA; 0x62; 0xD] = [[0x61]; [0x62; 0xD]].
Proof. split; [apply substr_spec; vm_compute; reflexivity|]. repeat split; vm_compute; reflexivity. Qed.
