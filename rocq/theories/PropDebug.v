(** C105: texts shown for debugging. *)
From Coq Require Import NArith List Bool.
From Verif Require Import Base Ucd Norm SpecText TextUtils TextFacts Utf8 GcbTable Views SpecViews StdDebug SpecDebug DebugProps.
Import ListNotations.
Local Open Scope N_scope.

(** Whatever the tables of std are ([ext]: which characters extend a grapheme, [printable]),
    the escaped text stands for the text; *)
Theorem C105_back : forall ext printable s, scalars s -> unescape Outside (escape_debug ext printable s) = Some s.
Proof. exact escape_debug_back. Qed.
Print Assumptions C105_back.
(** so does what {:?} shows between the quotes, *)
Theorem C105_debug_back : forall ext printable s, scalars s -> exists e, debug_str ext printable s = [0x22] ++ e ++ [0x22] /\ unescape Outside e = Some s.
Proof. exact debug_str_back. Qed.
Print Assumptions C105_debug_back.
(** and the closing quote can be told from the quotes of the text, whatever follows it. *)
Theorem C105_delimited : forall ext printable s t r r', scalars s -> scalars t -> debug_str ext printable s ++ r = debug_str ext printable t ++ r' -> s = t /\ r = r'.
Proof. exact debug_str_delimited. Qed.
Print Assumptions C105_delimited.
(** A valid text is shown on one line, without control characters. *)
Theorem C105_one_line : forall ext printable s, Forall allowed s -> Forall (fun x => 0x20 <= x) (escape_debug ext printable s) /\ Forall (fun x => 0x20 <= x) (debug_str ext printable s).
Proof. exact debug_one_line. Qed.
Print Assumptions C105_one_line.
(** What {:?} shows for a valid text or substring is a valid text, if what composes with
    n, r or t extends a grapheme; *)
Theorem C105_debug_valid : forall name ext printable s, accents_extend ext -> Forall (fun x => 0x20 <= x <= 0x7E) name -> substring_ok s ->
  string_ok (debug_str ext printable s) /\ string_ok (debug_text name ext printable s).
Proof. intros name ext printable s HE HN H. split; [now apply debug_str_valid|now apply debug_text_valid]. Qed.
Print Assumptions C105_debug_valid.
(** it does, in Unicode. *)
Theorem C105_accents : accents_extend (fun c => in_ranges c gcb_extend).
Proof. exact extend_accents. Qed.
Print Assumptions C105_accents.
(** The escaped text is a valid text exactly if the letters n and t of escapes are not
    followed by accents that combine with them; *)
Theorem C105_valid_exact : forall ext printable s, string_ok s -> string_ok (escape_debug ext printable s) <-> letters_apart printable s.
Proof. exact escape_debug_valid. Qed.
Print Assumptions C105_valid_exact.
(** for a substring, it is a valid substring exactly then; *)
Theorem C105_substr_exact : forall ext printable s, substring_ok s -> substring_ok (escape_debug ext printable s) <-> letters_apart printable s.
Proof. exact escape_debug_substr. Qed.
Print Assumptions C105_substr_exact.
(** a character that extends a grapheme is never its first, so it can be put after anything. *)
Theorem C105_start : forall ext printable s c t, ext 0x5C = false -> escape_debug ext printable s = c :: t -> ext c = false.
Proof. exact escape_debug_start. Qed.
Print Assumptions C105_start.
(** It is valid in particular if what follows tabs and line ends may begin a text. *)
Theorem C105_valid_partial : forall ext printable s, string_ok s -> (forall a c x b, s = a ++ c :: b -> letter_of c x -> starts_ok b) -> string_ok (escape_debug ext printable s).
Proof. intros ext printable s H K. apply escape_debug_valid; [exact H|]. apply start_after_letter; [exact (proj1 H)|exact K]. Qed.
Print Assumptions C105_valid_partial.
(** But LF U+301, a valid text, is shown as "\n" U+301, whose "n" combines with U+301. *)
Theorem C105_valid_refuted : exists s, string_ok s /\ forall ext printable, printable 0x301 = true -> ~ string_ok (escape_debug ext printable s).
Proof.
  assert (OK : string_ok [0xA; 0x301]) by (apply basic_text_spec; vm_compute; reflexivity).
  exists [0xA; 0x301]. split; [exact OK|]. intros ext printable P H. apply (proj1 (C105_valid_exact ext printable _ OK)) in H. assert (L : letter_of 0xA 0x6E) by (right; left; reflexivity). specialize (H [] 0xA 0x6E [0x301] eq_refl L).
  assert (E : shown (as_is printable) [0x301] = [0x301]) by (cbn [shown]; unfold as_is; rewrite P; reflexivity). rewrite E in H. unfold nfc_text in H. vm_compute in H. discriminate.
Qed.
Print Assumptions C105_valid_refuted.

(** Tables for the examples. *)
Definition ext105 (c : N) : bool := in_ranges c gcb_extend.
Definition printable105 (c : N) : bool := (0x20 <=? c) && negb (in_range c 0x7F 0xA0).
(** LF "é'" LF U+301, a quote *)
Definition ex105 : list N := [0xA; 0xE9; 0x27; 0xA; 0x301; 0x22].
Example C105_example : string_ok ex105 /\ ~ string_ok (escape_debug ext105 printable105 ex105) /\
  escape_debug ext105 printable105 ex105 = [0x5C; 0x6E; 0xE9; 0x5C; 0x27; 0x5C; 0x6E; 0x301; 0x5C; 0x22] /\
  debug_str ext105 printable105 ex105 = [0x22; 0x5C; 0x6E; 0xE9; 0x27; 0x5C; 0x6E; 0x5C; 0x75; 0x7B; 0x33; 0x30; 0x31; 0x7D; 0x5C; 0x22; 0x22] /\
  escape_debug ext105 printable105 [0x301; 0x301] = [0x5C; 0x75; 0x7B; 0x33; 0x30; 0x31; 0x7D; 0x301] /\
  escape_debug ext105 printable105 [0x61; 0x9; 0x62] = [0x61; 0x5C; 0x74; 0x62] /\
  (forall a c x b, [0x61; 0x9; 0x62] = a ++ c :: b -> letter_of c x -> starts_ok b).
Proof.
  split; [apply basic_text_spec; vm_compute; reflexivity|]. split; [intro H; apply basic_text_spec in H; vm_compute in H; discriminate|]. do 4 (split; [vm_compute; reflexivity|]).
  intros a c x b E L. destruct a as [|? [|? [|? a]]]; cbn in E; injection E as; subst; try (destruct L as [L|[L|[L|[]]]]; discriminate); try discriminate; try (destruct a; discriminate).
  apply starts_ok_iff. vm_compute. reflexivity.
Qed.
