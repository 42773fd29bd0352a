(** Theorems: the example programs (C79). *)
From Coq Require Import NArith List Bool.
From Verif Require Import Base Ucd Norm Chars SpecText Utf8 Input SpecRead SpecExamples Examples ExampleProps.
Import ListNotations.
Local Open Scope N_scope.

(** ** C79 *)
(** nfc-cat writes the normalization form C of the whole text, with line ends LF
    and the last line terminated; ssnfc-cat the same in Stream-Safe form. *)
Theorem C79_nfc_cat : forall s, nfc_cat s = nfc (terminated (unix s)).
Proof. exact nfc_cat_text. Qed.
Print Assumptions C79_nfc_cat.
Theorem C79_ssnfc_cat : forall s, ssnfc_cat s = nfc (stream_safe (terminated (unix s))) .
Proof. exact ssnfc_cat_text. Qed.
Print Assumptions C79_ssnfc_cat.
(** Filtering twice is the same as filtering once exactly if the text contains no
    CR CR LF and does not end with CR. *)
Theorem C79_nfc_cat_twice : forall s, nfc_cat (nfc_cat s) = nfc_cat s <-> ~ ((exists a b, s = a ++ 0xD :: 0xD :: 0xA :: b) \/ exists a, s = a ++ [0xD]).
Proof. exact nfc_cat_idem. Qed.
Print Assumptions C79_nfc_cat_twice.
Theorem C79_ssnfc_cat_twice : forall s, ssnfc_cat (ssnfc_cat s) = ssnfc_cat s <-> ~ ((exists a b, s = a ++ 0xD :: 0xD :: 0xA :: b) \/ exists a, s = a ++ [0xD]).
Proof. exact ssnfc_cat_idem. Qed.
Print Assumptions C79_ssnfc_cat_twice.
(** text-cat ends on every stream; its output is the text that a reader delivers.
    If reading does not fail, all of it, and that is valid Basic Text. *)
Theorem C79_text_cat : forall nel lsps script blen, (136 <= blen)%nat -> exists n, forall fuel, (n <= fuel)%nat ->
  exists k rs j rest ok, reads (new_input nel lsps) script (repeat blen k) = (rs, j, rest) /\
    text_cat fuel (new_input nel lsps) script blen [] = Some (ok, encode_all (received rs)) /\
    (ok = true -> reached_end rs) /\ (no_fail script -> ok = true /\ string_ok (received rs) /\ line_terminated (received rs)).
Proof. exact text_cat_copies. Qed.
Print Assumptions C79_text_cat.
Example C79_example :
  nfc_cat [0x65; 0x301; 0xD; 0xA; 0x212B; 0xA; 0x61] = [0xE9; 0xA; 0xC5; 0xA; 0x61; 0xA] /\
  ssnfc_cat (repeat 0x301 32 ++ [0xD; 0xA]) = repeat 0x301 30 ++ [0x34F; 0x301; 0x301; 0xA] /\
  nfc_cat (repeat 0x301 32) = repeat 0x301 32 ++ [0xA] /\
  text_cat 9 (new_input false false) [Chunk [0x65; 0x301; 0xD] Active; Chunk [0xA; 0x61] Active] (64 * 128) [] = Some (true, [0xC3; 0xA9; 0xA; 0x61; 0xA]) /\
  text_cat 9 (new_input false false) [Chunk [0x65; 0xA] Active; Fail] (64 * 128) [] = Some (false, [0x65; 0xA]).
Proof. vm_compute. auto. Qed.
(** A line that ends with CR CR LF loses one CR each time. *)
Theorem C79_twice_refuted : exists s, nfc_cat (nfc_cat s) <> nfc_cat s /\ ssnfc_cat (ssnfc_cat s) <> ssnfc_cat s.
Proof. exists [0x61; 0xD; 0xD; 0xA]. split; vm_compute; discriminate. Qed.
Print Assumptions C79_twice_refuted.
