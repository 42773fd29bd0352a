(** C80: compatibility ideographs can be told from the text that was read. *)
From Coq Require Import NArith List Bool.
From Verif Require Import Base Ucd UcdTables Norm Chars TextUtils SpecText Input Output Strings SpecRead SpecEscape SpecString SpecCat SpecPush SpecCjk TextFacts CjkProps.
Import ListNotations.
Local Open Scope N_scope.

(** Replacing the variation sequences of the delivered text by their ideographs
    gives back exactly the compatibility ideographs of the stream, in order. *)
Theorem C80_ideographs_kept : forall nel lsps script o, gives nel lsps script o -> bom_visible script -> no_selector (stream_text script) -> ~ In 0x1B (stream_text script) ->
  ideographs (restore o) = ideographs (stream_text script).
Proof. exact session_ideographs_plain. Qed.
Print Assumptions C80_ideographs_kept.
(** With escape sequences: those of the text outside them. *)
Theorem C80_ideographs_kept_sequences : forall nel lsps script o rss, gives nel lsps script o -> bom_visible script -> no_selector (stream_text script) ->
  Forall2 (replaced true (char_rep nel lsps)) (segments_read script) rss -> ideographs (restore o) = ideographs (concat (concat rss)).
Proof. exact session_ideographs. Qed.
Print Assumptions C80_ideographs_kept_sequences.
(** So texts that differ in an ideograph are not read as the same text. *)
Theorem C80_told_apart : forall n1 l1 n2 l2 s1 s2 o, gives n1 l1 s1 o -> gives n2 l2 s2 o -> bom_visible s1 -> bom_visible s2 ->
  no_selector (stream_text s1) -> no_selector (stream_text s2) -> ~ In 0x1B (stream_text s1) -> ~ In 0x1B (stream_text s2) ->
  ideographs (stream_text s1) = ideographs (stream_text s2).
Proof. exact told_apart. Qed.
Print Assumptions C80_told_apart.
(** Reading undoes [restore]: valid text in which every variation sequence is
    replaced by its ideograph is read as the text before. *)
Theorem C80_way_back : forall nel lsps script o x, gives nel lsps script o -> no_push script -> string_ok x -> line_terminated x ->
  Forall (fun c => is_assigned c = true) x -> stream_text script = restore x -> o = x.
Proof. exact read_restored. Qed.
Print Assumptions C80_way_back.
(** No two ideographs have the same sequence. *)
Theorem C80_sequences_differ : forall i j b v, In (i, (b, v)) raw_cjk -> In (j, (b, v)) raw_cjk -> i = j.
Proof. exact sequences_differ. Qed.
Print Assumptions C80_sequences_differ.

(** The strict conversion refuses them, so it loses nothing either. *)
Theorem C80_strict_refuses : forall check s c t, In c s -> ideograph c = true -> string_from_text check s <> TOk t.
Proof. exact strict_refuses. Qed.
Print Assumptions C80_strict_refuses.

(** U+F900 and its unified ideograph with an accent, U+F907 and U+F908 that have
    the same unified ideograph; cut inside a line. *)
Definition ex80 : list event := [Chunk [0xF900; 0x8C48; 0x301; 0xF907] Active; Chunk [0xF908; 0xD] End].
Definition ex80_text : list N := [0x8C48; 0xFE00; 0x8C48; 0x301; 0x9F9C; 0xFE00; 0x9F9C; 0xFE01; 0xA].
Example C80_example : gives false false ex80 ex80_text /\ bom_visible ex80 /\ no_selector (stream_text ex80) /\ ~ In 0x1B (stream_text ex80) /\
  ideographs (restore ex80_text) = [0xF900; 0xF907; 0xF908] /\ length raw_cjk = 1002%nat.
Proof.
  split; [exists [136; 136]%nat; do 3 eexists; split; [vm_compute; reflexivity|]; split; [eexists [_]; do 2 eexists; reflexivity|vm_compute; reflexivity]|].
  split; [left; discriminate|]. split; [repeat constructor; intros [H1 H2]; vm_compute in H1, H2; congruence|].
  split; [cbn; intuition discriminate|]. split; vm_compute; reflexivity.
Qed.
Example C80_back_example : string_ok ex80_text /\ line_terminated ex80_text /\ Forall (fun c => is_assigned c = true) ex80_text /\
  restore ex80_text = [0xF900; 0x8C48; 0x301; 0xF907; 0xF908; 0xA].
Proof.
  split; [apply basic_text_spec; vm_compute; reflexivity|]. split; [right; eexists [_; _; _; _; _; _; _; _]; reflexivity|].
  split; [repeat constructor; vm_compute; reflexivity|]. vm_compute. reflexivity.
Qed.
(** Normalization form C alone loses the difference. *)
Example C80_nfc_alone : nfc [0xF907] = nfc [0xF908] /\ nfc [0xF907] = [0x9F9C].
Proof. split; vm_compute; reflexivity. Qed.
(** A stream that already has variation sequences is read like the ideographs. *)
Theorem C80_selectors_refuted : exists s1 s2 o, gives false false s1 o /\ gives false false s2 o /\ bom_visible s1 /\ bom_visible s2 /\
  ~ In 0x1B (stream_text s1) /\ ~ In 0x1B (stream_text s2) /\ ideographs (stream_text s1) <> ideographs (stream_text s2).
Proof.
  exists [Chunk [0xF900; 0xA] End], [Chunk [0x8C48; 0xFE00; 0xA] End], [0x8C48; 0xFE00; 0xA].
  split; [exists [136]%nat; do 3 eexists; split; [vm_compute; reflexivity|]; split; [eexists []; do 2 eexists; reflexivity|vm_compute; reflexivity]|].
  split; [exists [136]%nat; do 3 eexists; split; [vm_compute; reflexivity|]; split; [eexists []; do 2 eexists; reflexivity|vm_compute; reflexivity]|].
  split; [left; discriminate|]. split; [left; discriminate|]. split; [cbn; intuition discriminate|]. split; [cbn; intuition discriminate|]. vm_compute. discriminate.
Qed.
Print Assumptions C80_selectors_refuted.
