(** C83: text values stay valid through any history of operations. *)
From Coq Require Import NArith List Bool.
From Verif Require Import Base Ucd Norm Chars TextUtils SpecText TextFacts Utf8 Input Strings SpecRead SpecString Lines SpecLone LoneProps SpecValues ValuesProps.
Import ListNotations.
Local Open Scope N_scope.

(** Whatever a program does with strings is valid if it avoids four things:
    putting together two strings that join, trimming where something is attached
    to the white space, repeating a substring that joins to itself or does not
    start like a text. *)
Theorem C83_checked_partial : forall t, str_value checked t -> string_ok t.
Proof. exact checked_str. Qed.
Print Assumptions C83_checked_partial.
Theorem C83_checked_substrings_partial : forall t, sub_value checked t -> substring_ok t.
Proof. exact checked_sub. Qed.
Print Assumptions C83_checked_substrings_partial.
(** It need not check anything if the texts it takes in are without vowel and
    trailing jamos and nothing in them is attached to white space (but for the
    repetition of substrings). *)
Theorem C83_loose_partial : forall rep t, str_value (given loose rep) t -> string_ok t /\ loose t.
Proof. exact loose_str. Qed.
Print Assumptions C83_loose_partial.
Theorem C83_loose_substrings_partial : forall t, sub_value (given loose starts_ok) t -> substring_ok t.
Proof. exact loose_sub. Qed.
Print Assumptions C83_loose_substrings_partial.
(** Precomposed text stays so, and any part of it is even a valid string. *)
Theorem C83_precomposed_partial : forall t, sub_value (given (Forall lone) (fun _ => True)) t -> Forall lone t /\ string_ok t.
Proof. exact lone_sub. Qed.
Print Assumptions C83_precomposed_partial.
(** Extend gives one of these values. *)
Theorem C83_extend : forall src rep l a, str_value (given src rep) a -> Forall (str_value (given src rep)) l -> str_value (given src rep) (extend a l).
Proof. intros src rep. exact (extend_value rep src). Qed.
Print Assumptions C83_extend.

(** "a" + " b", trimmed, split, indexed, repeated *)
Example C83_example :
  loose [0x61; 0x20; 0x62] /\ Forall lone [0x61; 0x20; 0x62] /\
  str_value checked (trim_start (push_text (trim [0x20; 0xE9; 0xA]) [0x20; 0x62])) /\
  trim_start (push_text (trim [0x20; 0xE9; 0xA]) [0x20; 0x62]) = [0xE9; 0x20; 0x62] /\
  sub_value checked [0x62] /\ ~ string_ok [0x301] /\ sub_value (given (fun _ => True) starts_ok) [0x301].
Proof.
  assert (W : forall s, is_basic_text s = true -> str_value checked s) by (intros s H; apply (sv_from_str checked s); [unfold str_from_text; now rewrite H|exact I]).
  assert (OK : forall s, is_basic_text s = true -> starts_ok s /\ ends_ok s) by (intros s H; apply basic_text_spec in H; destruct H as (_ & ? & ?); auto).
  split; [|split; [|split; [|split; [|split; [|split]]]]].
  - split.
    + repeat constructor; unfold vowel_or_trailing; intros [[K _]|[K _]]; now apply K.
    + intros [|a1 [|a2 [|a3 a]]] x y b E; try (destruct a; discriminate); try discriminate; injection E; intros; subst; split; intros _; vm_compute; reflexivity.
  - constructor; [|constructor; [|constructor; [|constructor]]]; apply scripts_lone; vm_compute; reflexivity.
  - apply sv_trim_start.
    + apply sv_push; [apply sv_trim|..].
      * apply W. vm_compute. reflexivity.
      * apply OK. vm_compute. reflexivity.
      * apply W. vm_compute. reflexivity.
      * intros (t & x & c & u & _ & E & J). injection E as <- _. destruct J as [[_ [J _]]|(_ & _ & [J _])]; now apply J.
    + apply OK. vm_compute. reflexivity.
  - vm_compute. reflexivity.
  - apply (su_index checked [0x61; 0x62] 1 2); [apply su_str, W; vm_compute; reflexivity|vm_compute; reflexivity].
  - rewrite <- basic_text_spec. vm_compute. discriminate.
  - apply (su_index_from _ [0x71; 0x301] 1); [|vm_compute; reflexivity]. apply su_str. apply (sv_from_text _ [0x71; 0x301]); [vm_compute; reflexivity|exact I].
Qed.
(** Without rules the operations make invalid values: + of Hangul jamos, trimming
    of a space with an accent, repetition of a substring. *)
Theorem C83_values_refuted :
  (exists a b, str_value anything a /\ str_value anything b /\ str_value anything (push_text a b) /\ is_basic_text (push_text a b) = false) /\
  (exists a, str_value anything a /\ str_value anything (trim a) /\ is_basic_text (trim a) = false) /\
  (exists a n, sub_value anything a /\ sub_value anything (repeat_text a n) /\ is_basic_text_substr (repeat_text a n) = false).
Proof.
  assert (W : forall s, is_basic_text s = true -> str_value anything s) by (intros s H; apply (sv_from_str anything s); [unfold str_from_text; now rewrite H|exact I]).
  split; [|split].
  - exists [0x1100], [0x1161]. assert (A : str_value anything [0x1100]) by (apply W; vm_compute; reflexivity). assert (B : str_value anything [0x1161]) by (apply W; vm_compute; reflexivity).
    split; [exact A|]. split; [exact B|]. split; [apply sv_push; auto; exact I|vm_compute; reflexivity].
  - exists [0x20; 0x301; 0x61]. assert (A : str_value anything [0x20; 0x301; 0x61]) by (apply W; vm_compute; reflexivity).
    split; [exact A|]. split; [apply sv_trim; auto; exact I|vm_compute; reflexivity].
  - exists [0x301; 0x65], 2%nat. assert (A : sub_value anything [0x301; 0x65]).
    { apply (su_from_str anything [0x301; 0x65]); [vm_compute; reflexivity|exact I]. }
    split; [exact A|]. split; [apply su_repeat; auto; exact I|vm_compute; reflexivity].
Qed.
Print Assumptions C83_values_refuted.
