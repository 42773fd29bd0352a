(** Every stream: exactly what is delivered, and when the cuts between reads matter. *)
From Coq Require Import NArith List Bool Lia.
From Verif Require Import Base Ucd Chars CharFacts SpecText TextFacts IsoFacts Input SpecRead SpecEscape EscapeFacts EscapeRun EscapeCheck ReadProps SpecConv SpecPush PushProps SpecGap SpecCut CutProps SpecCertain CertainFacts CertainProps.
Import ListNotations.
Local Open Scope N_scope.

(** ** C70 *)
(** The text of any stream whatsoever: what becomes known with each read is
    converted up to its last U+A or U+34F. *)
Theorem C70_step_by_step : forall nel lsps script sizes out j rest rss Ts, reads (new_input nel lsps) script sizes = (out, j, rest) -> reached_end out ->
  bom_visible script -> Forall2 (replaced true (char_rep nel lsps)) (segments_read script) rss -> Forall2 (known nel lsps) (cuts [] script) Ts ->
  delivered out = step_by_step [] (Ts ++ [pushed_text rss]).
Proof. exact session_steps. Qed.
Print Assumptions C70_step_by_step.
(** What is known is determined after every read. *)
Theorem C70_known : forall nel lsps x, exists T, known nel lsps x T /\ forall T', known nel lsps x T' -> T' = T.
Proof. intros nel lsps x. destruct (known_total nel lsps x) as [T H]. exists T. split; [exact H|]. intros T' H'. exact (known_det _ _ _ _ _ H' H). Qed.
Print Assumptions C70_known.
(** The cuts between reads have no effect exactly if no read ends between U+34F
    and an unassigned character after it in the text between the pushes; else
    more is delivered. *)
Theorem C70_cuts_exact : forall nel lsps script sizes out j rest rss, reads (new_input nel lsps) script sizes = (out, j, rest) -> reached_end out ->
  bom_visible script -> Forall2 (replaced true (char_rep nel lsps)) (segments_read script) rss ->
  (delivered out = coded_form (pushed_text rss) <-> ~ cut_badly nel lsps script (pushed_text rss)) /\
  (cut_badly nel lsps script (pushed_text rss) -> (length (coded_form (pushed_text rss)) < length (delivered out))%nat).
Proof. exact session_cut_badly. Qed.
Print Assumptions C70_cuts_exact.
(** So the cuts do have an effect in some streams. *)
Theorem C70_cuts_refuted : exists script sizes out j rest rss, reads (new_input false false) script sizes = (out, j, rest) /\ reached_end out /\
  bom_visible script /\ Forall2 (replaced true (char_rep false false)) (segments_read script) rss /\ delivered out <> coded_form (pushed_text rss).
Proof.
  exists [Chunk [0x61; 0x34F] Active; Chunk [0x378; 0xA] End], [136; 136]%nat. do 3 eexists. exists [[[0x61]; [0x34F]; [0x378]; [0xA]]].
  split; [vm_compute; reflexivity|]. split; [eexists [_]; do 2 eexists; reflexivity|]. split; [left; discriminate|]. split.
  - constructor; [|constructor]. change (without_bom ([97; 847] ++ [888; 10])) with [0x61; 0x34F; 0x378; 0xA].
    assert (C : forall c rest rs, c <> 0xD -> c <> 0xC -> c <> 0x1B -> char_rep false false c = [c] -> replaced true (char_rep false false) rest rs ->
      longest true (char_rep false false) [c] ([c] ++ rest) -> replaced true (char_rep false false) (c :: rest) ([c] :: rs)).
    { intros c rest rs H1 H2 H3 HR R L. change (c :: rest) with ([c] ++ rest). rewrite <- HR at 2. apply replaced_cons; [now constructor|exact L|exact R]. }
    do 4 (apply C; [discriminate|discriminate|discriminate|vm_compute; reflexivity| |apply longest_check; vm_compute; reflexivity]). constructor.
  - vm_compute. discriminate.
Qed.
Print Assumptions C70_cuts_refuted.

(** ** C04 *)
(** The conversion of a stream without pushes, with nothing assumed about its text. *)
Theorem C04_conversion_exact : forall nel lsps script sizes out j rest rs, reads (new_input nel lsps) script sizes = (out, j, rest) -> reached_end out -> no_push script -> bom_visible script ->
  replaced true (char_rep nel lsps) (without_bom (stream_text script)) rs ->
  let whole := guard_end (guard_start (concat rs)) ++ final_newline rs in
  (delivered out = coded_form whole <-> ~ cut_badly nel lsps script whole) /\
  (cut_badly nel lsps script whole -> (length (coded_form whole) < length (delivered out))%nat).
Proof. exact no_push_cut_badly. Qed.
Print Assumptions C04_conversion_exact.

(** ** C05 *)
(** Cutting a stream into reads changes nothing exactly if no read ends between
    U+34F and an unassigned character after it. *)
Theorem C05_chunks_exact : forall nel lsps script sizes out j rest sizes1 out1 j1 rest1 rs, no_push script -> bom_visible script ->
  reads (new_input nel lsps) script sizes = (out, j, rest) -> reached_end out ->
  reads (new_input nel lsps) [Chunk (stream_text script) End] sizes1 = (out1, j1, rest1) -> reached_end out1 ->
  replaced true (char_rep nel lsps) (without_bom (stream_text script)) rs ->
  let whole := guard_end (guard_start (concat rs)) ++ final_newline rs in
  (delivered out = delivered out1 <-> ~ cut_badly nel lsps script whole) /\
  (cut_badly nel lsps script whole -> (length (delivered out1) < length (delivered out))%nat).
Proof. exact chunks_exact. Qed.
Print Assumptions C05_chunks_exact.

(** After "a U+34F ESC [" only "a U+34F" is known; what comes next is not certain.
    After "a CR" only "a" is. *)
Lemma certain_char : forall nel lsps c rest rs, c <> 0xD -> c <> 0xC -> c <> 0x1B -> certain true (char_rep nel lsps) rest rs ->
  certain true (char_rep nel lsps) (c :: rest) (char_rep nel lsps c :: rs).
Proof.
  intros nel lsps c rest rs H1 H2 H3 C. change (c :: rest) with ([c] ++ rest). apply certain_cons; [now constructor| |exact C].
  intros z m r rest' HR E. inversion HR; subst; cbn in *;
    repeat match goal with H : run_of _ ?l |- _ => destruct H as [?NE ?F]; destruct l as [|? ?]; [congruence|]; inversion F; subst; clear F end; cbn in *; try (injection E as -> _; congruence); lia.
Qed.
Example known_example : known false false [Chunk [0x61; 0x34F; 0x1B] Active; Chunk [0x5B] Active] [0x61; 0x34F] /\
  known false false [Chunk [0x61; 0xD] Active] [0x61] /\ known false false [Chunk [0x61; 0xD] Push; Chunk [0x301; 0x62] Active] ([0x61; 0xA] ++ [0x34F; 0x301; 0x62]) /\
  cuts [] [Chunk [0x61; 0x34F; 0x1B] Active; Fail; Chunk [0x5B] Active; Chunk [0x6D; 0x378; 0xA] End] =
    [[Chunk [0x61; 0x34F; 0x1B] Active]; [Chunk [0x61; 0x34F; 0x1B] Active; Chunk [0x5B] Active]].
Proof.
  assert (R : forall c, char_rep false false c = [c] -> forall rest rs, c <> 0xD -> c <> 0xC -> c <> 0x1B -> certain true (char_rep false false) rest rs ->
    certain true (char_rep false false) (c :: rest) ([c] :: rs)) by (intros c H rest rs H1 H2 H3 K; pose proof (certain_char false false c rest rs H1 H2 H3 K) as P; now rewrite H in P).
  split; [|split; [|split]].
  - exists [], [[0x61]; [0x34F]]. split; [constructor|]. split; [|vm_compute; reflexivity]. change (last (segments_read [Chunk [97; 847; 27] Active; Chunk [91] Active]) []) with [0x61; 0x34F; 0x1B; 0x5B].
    apply R; [vm_compute; reflexivity|discriminate|discriminate|discriminate|]. apply R; [vm_compute; reflexivity|discriminate|discriminate|discriminate|].
    apply (certain_open _ _ _ [0x6D] []); [discriminate|]. apply (row_csi_final _ _ [0x1B] [] 0x6D); [split; [discriminate|repeat constructor]|constructor|left; split; discriminate].
  - exists [], [[0x61]]. split; [constructor|]. split; [|vm_compute; reflexivity]. change (last (segments_read [Chunk [97; 13] Active]) []) with [0x61; 0xD].
    apply R; [vm_compute; reflexivity|discriminate|discriminate|discriminate|]. apply (certain_open _ _ _ [0xA] [0xA]); [discriminate|constructor].
  - exists [[[0x61]; [0xA]]], [[0x301]; [0x62]]. split; [|split; [|vm_compute; reflexivity]].
    + constructor; [|constructor]. change (without_bom [97; 13]) with ([0x61] ++ [0xD]). replace [0x61] with (char_rep false false 0x61) at 2 by (vm_compute; reflexivity).
      apply replaced_cons; [constructor; discriminate|apply longest_check; vm_compute; reflexivity|]. change [0xD] with ([0xD] ++ []). apply replaced_cons; [constructor|apply longest_check; vm_compute; reflexivity|constructor].
    + change (last (segments_read [Chunk [97; 13] Push; Chunk [769; 98] Active]) []) with [0x301; 0x62].
      apply R; [vm_compute; reflexivity|discriminate|discriminate|discriminate|]. apply R; [vm_compute; reflexivity|discriminate|discriminate|discriminate|]. constructor.
  - reflexivity.
Qed.
(** A bad cut inside the escape sequence between U+34F and the unassigned character. *)
Example cut_badly_example : cut_badly false false [Chunk [0x61; 0x34F; 0x1B] Active; Chunk [0x5B] Active; Chunk [0x6D; 0x378; 0xA] End] [0x61; 0x34F; 0x378; 0xA] /\
  delivered (fst (fst (reads (new_input false false) [Chunk [0x61; 0x34F; 0x1B] Active; Chunk [0x5B] Active; Chunk [0x6D; 0x378; 0xA] End] [136; 136; 136]%nat)))
    = [0x61; 0x34F; 0x34F; 0x378; 0x34F; 0xA].
Proof.
  split; [|vm_compute; reflexivity]. eexists _, _, [0x378; 0xA]. split; [right; left; reflexivity|]. split; [exact (proj1 known_example)|]. split; [reflexivity|].
  apply cutb_spec. vm_compute. reflexivity.
Qed.
