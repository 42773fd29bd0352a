(** C65, C74: the empty pattern, and patterns that look at single characters (a
    char, a slice of chars, a closure). *)
From Coq Require Import NArith List Bool Sorted.
From Verif Require Import Base Ucd Norm Chars TextUtils SpecText TextFacts Utf8 Strings Search SpecSearch SearchProps Views Patterns PatternProps.
Import ListNotations.
Local Open Scope N_scope.

(** ** C65 *)
(** An empty pattern matches at every place between characters, from left to
    right; *)
Theorem C65_empty_pattern : forall s l, text_match_indices s [] = l <-> StronglySorted lt l /\ forall i, In i l <-> occurs_at [] s i.
Proof. exact empty_matches. Qed.
Print Assumptions C65_empty_pattern.
(** matches and rmatches give the pattern (its bytes), as often as match_indices
    and rmatch_indices give a position. *)
Theorem C65_matches_text : forall s p, scalars s -> scalars p ->
  text_matches s p = repeat (encode_all p) (length (text_match_indices s p)) /\
  text_rmatches s p = repeat (encode_all p) (length (text_rmatch_indices s p)).
Proof. exact matches_text. Qed.
Print Assumptions C65_matches_text.
Example C65_empty_example : text_match_indices [0xE9; 0x61] [] = [0; 2; 3]%nat /\ text_rmatch_indices [0xE9; 0x61] [] = [3; 2; 0]%nat /\
  text_matches [0xE9; 0x61; 0xE9] [0xE9] = [[0xC3; 0xA9]; [0xC3; 0xA9]] /\ text_find [0xE9; 0x61] [] = Some 0%nat /\ text_rfind [0xE9; 0x61] [] = Some 3%nat.
Proof. vm_compute. auto. Qed.
(** A pattern [P] of single characters: the first, and the last, character that
    satisfies it; *)
Theorem C65_first_character : forall P s,
  (forall i, by_find P s = Some i <-> exists a c b, s = a ++ c :: b /\ P c = true /\ Forall (fun x => P x = false) a /\ i = str_len a) /\
  (by_find P s = None <-> Forall (fun x => P x = false) s).
Proof. exact by_find_spec. Qed.
Print Assumptions C65_first_character.
Theorem C65_last_character : forall P s,
  (forall i, by_rfind P s = Some i <-> exists a c b, s = a ++ c :: b /\ P c = true /\ Forall (fun x => P x = false) b /\ i = str_len a) /\
  (by_rfind P s = None <-> Forall (fun x => P x = false) s).
Proof. exact by_rfind_spec. Qed.
Print Assumptions C65_last_character.
(** contains, starts_with and ends_with look for some, the first and the last
    character; *)
Theorem C65_character_tests : forall P s, (by_contains P s = true <-> exists c, In c s /\ P c = true) /\
  (by_starts_with P s = true <-> exists c t, s = c :: t /\ P c = true) /\ (by_ends_with P s = true <-> exists t c, s = t ++ [c] /\ P c = true).
Proof. exact by_tests. Qed.
Print Assumptions C65_character_tests.
(** match_indices gives all of them from left to right. *)
Theorem C65_characters : forall P s l,
  by_match_indices P s = l <-> StronglySorted lt l /\ forall i, In i l <-> exists a c b, s = a ++ c :: b /\ P c = true /\ i = str_len a.
Proof. exact by_matches. Qed.
Print Assumptions C65_characters.
(** A char finds what the string of it finds. *)
Theorem C65_char_is_string : forall s c, scalars s -> scalars [c] ->
  by_find (N.eqb c) s = text_find s [c] /\ by_rfind (N.eqb c) s = text_rfind s [c] /\ by_match_indices (N.eqb c) s = text_match_indices s [c].
Proof. exact char_pattern. Qed.
Print Assumptions C65_char_is_string.
(** The text can be sliced at every character found, and the slices are valid. *)
Theorem C65_character_slices : forall P s i, substring_ok s -> In i (by_match_indices P s) ->
  exists a c b, s = a ++ c :: b /\ P c = true /\ index_to s i = Some a /\ index_from s i = Some (c :: b) /\ substring_ok a /\ substring_ok (c :: b).
Proof. exact by_slices. Qed.
Print Assumptions C65_character_slices.
Definition vowel (c : N) : bool := existsb (N.eqb c) [0x61; 0x65; 0x69; 0x6F; 0x75; 0xE9].
Example C65_characters_example : by_match_indices vowel [0xE9; 0x62; 0x61; 0x1F600; 0x6F] = [0; 3; 8]%nat /\ by_find vowel [0x1F600; 0x6F; 0x61] = Some 4%nat /\
  by_rfind vowel [0x1F600; 0xE9; 0x61; 0x62] = Some 6%nat /\ by_starts_with vowel [0xE9] = true /\ by_ends_with vowel [0x61; 0x301] = false /\
  substring_ok [0xE9; 0x62; 0x61].
Proof. do 5 (split; [vm_compute; reflexivity|]). apply substr_spec. vm_compute. reflexivity. Qed.

(** ** C74 *)
(** From the right come the same places, in the other order, for an empty pattern
    and for a pattern of single characters. *)
Theorem C74_rmatches_reversed : forall P s, text_rmatch_indices s [] = rev (text_match_indices s []) /\ by_rmatch_indices P s = rev (by_match_indices P s).
Proof. intros P s. split; [apply empty_rmatches|apply by_rmatches]. Qed.
Print Assumptions C74_rmatches_reversed.
Example C74_reversed_example : by_rmatch_indices vowel [0xE9; 0x62; 0x61; 0x1F600; 0x6F] = [8; 3; 0]%nat.
Proof. vm_compute. reflexivity. Qed.
