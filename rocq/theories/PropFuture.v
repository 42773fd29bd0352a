(** Text under later versions of Unicode: C88, C89. *)
From Coq Require Import NArith List Bool Lia ZifyBool ZifyNat ZifyN.
From Verif Require Import Base Ucd Norm Chars TextUtils Strings Utf8 Input UcdFacts NormFacts CharFacts SpecText SpecMore SpecRead SpecString SpecEscape SpecConv TextFacts PipelineFacts IsoFacts GuardFacts StringFacts StringProps ReadFacts ReadSession ReadInv ReadPieces ReadProps DocProps LossyProps Future FutureProps NewerProps NewerPush SpecWrite Output NewerWrite.
Import ListNotations.
Local Open Scope N_scope.

(** ** C88 *)
(** The functions for other tables are the normalization functions if the tables are
    those of now. *)
Theorem C88_present : forall s, nfc_in present s = nfc s /\ stream_safe_in present s = stream_safe s.
Proof. intro s. exact (conj (nfc_present s) (stream_safe_present s)). Qed.
Print Assumptions C88_present.
(** Isolated text does not change. *)
Theorem C88_isolated_partial : forall s, substring_ok s -> isolated s -> protected s.
Proof. intros s S I. apply guarded_protected; [now apply isolated_guarded|]. exact (proj2 (proj1 (substr_ok_iff _) (proj2 (substr_spec _) S))). Qed.
Print Assumptions C88_isolated_partial.
(** In general, only the characters that are assigned later change, each for itself. *)
Theorem C88_changes : forall t s, later t -> substring_ok s -> isolated s ->
  stream_safe_in t s = s /\ nfc_in t s = flat_map (fun c => if is_assigned c then [c] else nfc_in t [c]) s /\ (nfc_in t s = s <-> kept_alone t s).
Proof.
  intros t s L S I. destruct (proj2 (proj1 (substr_ok_iff _) (proj2 (substr_spec _) S))) as [N1 N2]. pose proof (isolated_nfc t L s I N1) as E.
  split; [now apply isolated_ss|]. split; [exact E|]. rewrite E. now apply stays_id.
Qed.
Print Assumptions C88_changes.
(** For what the strict conversion gives, being followed by U+34F is what is needed. *)
Theorem C88_from_text : forall check s r, string_from_text check s = TOk r -> (protected r <-> followed r) /\ (closed_guards s -> protected r).
Proof.
  intros check s r H. rewrite string_from_text_spec in H. destruct (accepted s); [|discriminate]. injection H as <-.
  assert (E : protected (pipeline s) <-> followed (pipeline s)) by (apply protected_exact; [apply pipeline_nfc_ss|exact (pipeline_preceded s)]).
  split; [exact E|]. intro G. apply E, isolated_followed, pipeline_isolated_exact, G.
Qed.
Print Assumptions C88_from_text.
(** For what a reader delivers up to the end of its stream, being isolated is what is
    needed; and it is, if no U+34F of the stream's own is in the way. *)
Theorem C88_stream_exact : forall nel lsps script sizes out j rest, reads (new_input nel lsps) script sizes = (out, j, rest) -> reached_end out ->
  protected (delivered out) <-> isolated (delivered out).
Proof.
  intros nel lsps script sizes out j rest H E. destruct (session_is_text_buffers _ _ _ _ _ _ _ H E) as [[S _] T].
  apply stream_protected_exact; [exact (proj2 (proj1 (substr_ok_iff _) (proj2 (substr_spec _) S)))| |exact T].
  destruct (session_end _ _ _ _ _ _ _ H E) as (-> & _). apply converted_preceded.
Qed.
Print Assumptions C88_stream_exact.
Theorem C88_stream : forall nel lsps script sizes out j rest rs, reads (new_input nel lsps) script sizes = (out, j, rest) -> reached_end out ->
  no_push script -> bom_visible script -> replaced true (char_rep nel lsps) (without_bom (stream_text script)) rs -> unguarded_text (concat rs) -> protected (delivered out).
Proof. intros nel lsps script sizes out j rest rs H E NP BV HR U. apply (C88_stream_exact _ _ _ _ _ _ _ H E). exact (delivered_isolated _ _ _ _ _ _ _ _ H E NP BV HR U). Qed.
Print Assumptions C88_stream.
(** Isolation is needed: without it a composition that comes with a later version
    changes the text. *)
Theorem C88_guarded_refuted : exists script sizes out j rest t, reads (new_input false false) script sizes = (out, j, rest) /\ reached_end out /\
  later t /\ kept_alone t (delivered out) /\ nfc_in t (delivered out) <> delivered out.
Proof.
  exists [Chunk [0x61; 0x34F; 0x378; 0x301; 0xA] End], [136]%nat. do 3 eexists. exists (adding 0x378 0x301 0x379).
  split; [vm_compute; reflexivity|]. split; [eexists []; do 2 eexists; reflexivity|].
  split; [apply adding_later; try (vm_compute; reflexivity); discriminate|]. split; [intros u _ U; now apply adding_alone|]. vm_compute. discriminate.
Qed.
Print Assumptions C88_guarded_refuted.
(** A character that comes with a decomposition of its own is not protected. *)
Definition decomposing : ucd := mkucd ccc (fun y => if y =? 0x378 then [0x61] else cd y) (fun y => if y =? 0x378 then [0x61] else kd y) compose.
Theorem C88_decomposing_refuted : exists s t, string_ok s /\ isolated s /\ later t /\ nfc_in t s <> s.
Proof.
  exists [0x34F; 0x378; 0x34F; 0x62], decomposing. split; [apply basic_text_spec; vm_compute; reflexivity|]. split.
  { change (isolated (pipeline [0x378; 0x62])). apply pipeline_isolated_exact, guards_check. vm_compute. reflexivity. }
  split; [|vm_compute; discriminate].
  assert (NR : forall y, is_assigned y = true -> (y =? 0x378) = false) by (intros y Y; apply N.eqb_neq; intros ->; vm_compute in Y; discriminate).
  split; cbn [decomposing t_ccc t_cd t_kd t_compose]; try reflexivity.
  - intros y Y. now rewrite NR.
  - intros y Y. now rewrite NR.
  - intros y. destruct (y =? 0x378); [discriminate|]. apply cd_nonnil.
  - intros y. destruct (y =? 0x378); [cbn; lia|]. apply kd_len.
  - intro y. destruct (b_inert _ boring_CGJ) as (_ & _ & NS & NF). split; [apply NF|apply NS].
Qed.
Print Assumptions C88_decomposing_refuted.
Example C88_example : later (adding 0x378 0x301 0x379) /\ nfc_in (adding 0x378 0x301 0x379) [0x378; 0x301] = [0x379] /\
  string_from_text is_basic_text [0x378; 0x301; 0x379] = TOk [0x34F; 0x378; 0x34F; 0x301; 0x34F; 0x379; 0x34F] /\
  nfc_in (adding 0x378 0x301 0x379) [0x34F; 0x378; 0x34F; 0x301; 0x34F; 0x379; 0x34F] = [0x34F; 0x378; 0x34F; 0x301; 0x34F; 0x379; 0x34F] /\
  closed_guards [0x378; 0x301; 0x379].
Proof.
  split; [apply adding_later; try (vm_compute; reflexivity); discriminate|]. split; [vm_compute; reflexivity|]. split; [vm_compute; reflexivity|]. split; [vm_compute; reflexivity|].
  apply guards_check. vm_compute. reflexivity.
Qed.

(** ** C89 *)
(** Text of a later version is accepted by the strict conversion, and gets nothing but
    U+34F, where the conversion isolates what it does not know. *)
Theorem C89_from_text : forall t check s, later t -> parts_normal t -> normal_in t s -> strict_accepts s ->
  exists r, string_from_text check s = TOk r /\ r = isolate_unassigned s /\ inserts 0x34F s r /\ string_ok r.
Proof.
  intros t check s L P E SA. pose proof (newer_from_text t L check s P E SA) as H. exists (isolate_unassigned s). split; [exact H|]. split; [reflexivity|].
  split; [apply iso_only_adds|]. now apply (from_text_ok check s).
Qed.
Print Assumptions C89_from_text.
(** A reader delivers it with nothing but U+34F added, in whatever pieces it comes,
    with pushes anywhere, and however it starts. *)
Theorem C89_stream : forall t nel lsps script sizes rs j rest, later t -> parts_normal t ->
  normal_in t (stream_text script) -> Forall allowed (stream_text script) -> line_terminated (stream_text script) ->
  reads (new_input nel lsps) script sizes = (rs, j, rest) -> reached_end rs ->
  inserts 0x34F (stream_text script) (delivered rs).
Proof. exact newer_pushed. Qed.
Print Assumptions C89_stream.
(** A version with a new letter U+378 that is a variant of U+61. *)
Example C89_example : exists t, later t /\ parts_normal t /\ t_kd t 0x378 = [0x61] /\
  normal_in t [0x378; 0x301; 0x62; 0xA] /\ strict_accepts [0x378; 0x301; 0x62; 0xA] /\
  string_from_text is_basic_text [0x378; 0x301; 0x62; 0xA] = TOk [0x34F; 0x378; 0x34F; 0x301; 0x62; 0xA].
Proof.
  exists (mkucd ccc cd (fun y => if y =? 0x378 then [0x61] else kd y) compose).
  split; [|split; [|split; [reflexivity|]]].
  - assert (NR : forall y, is_assigned y = true -> (y =? 0x378) = false) by (intros y Y; apply N.eqb_neq; intros ->; vm_compute in Y; discriminate).
    split; cbn [t_ccc t_cd t_kd t_compose]; try reflexivity.
    + intros y Y. now rewrite NR.
    + intros y. apply cd_nonnil.
    + intros y. destruct (y =? 0x378); [cbn; lia|]. apply kd_len.
    + intro y. destruct (b_inert _ boring_CGJ) as (_ & _ & NS & NF). split; [apply NF|apply NS].
  - exact present_parts.
  - split; [split; vm_compute; reflexivity|]. split; [apply accepted_iff; vm_compute; reflexivity|]. vm_compute. reflexivity.
Qed.
(** A push in the middle of a word: U+34F before the accent after it, too. *)
Example C89_stream_example : let script := [Chunk [0x378; 0x62] Push; Chunk [0x301; 0xA] End] in
  Forall allowed (stream_text script) /\ line_terminated (stream_text script) /\ normal_in present (stream_text script) /\
  exists rs j rest, reads (new_input false false) script [136; 136]%nat = (rs, j, rest) /\ reached_end rs /\ delivered rs = [0x34F; 0x378; 0x34F; 0x62; 0x34F; 0x301; 0xA].
Proof.
  cbv zeta. split; [apply Forall_allowed_clean, Forall_forall; rewrite <- forallb_forall; vm_compute; reflexivity|]. split; [right; now exists [0x378; 0x62; 0x301]|]. split; [split; vm_compute; reflexivity|].
  do 3 eexists. split; [vm_compute; reflexivity|]. split; [eexists [_]; do 2 eexists; reflexivity|vm_compute; reflexivity].
Qed.
(** A writer accepts it, in whatever pieces it is written, and sends it with nothing
    but U+34F added. *)
Theorem C89_written : forall t cr p ps rs w, later t -> parts_normal t ->
  normal_in t (concat ps) -> Forall allowed (concat ps) -> starts_ok (concat ps) ->
  do_ops (new_writer cr false (mksink p [] false)) (map OpWriteStr ps) = (rs, w) ->
  Forall (fun r => r = None) rs /\ exists v, inserts 0x34F (concat ps) v /\ emitted (inner w) = p ++ as_sent cr v /\
    (line_terminated (concat ps) -> exists w', close w = (None, w') /\ emitted (inner w') = emitted (inner w)).
Proof. exact newer_written. Qed.
Print Assumptions C89_written.
Example C89_written_example : let ps := [[0x378]; [0x301; 0x62]; [0xA]] in
  Forall allowed (concat ps) /\ starts_ok (concat ps) /\ line_terminated (concat ps) /\ normal_in present (concat ps) /\
  emitted (inner (snd (do_ops (new_writer true false (mksink [] [] false)) (map OpWriteStr ps)))) = [0x34F; 0x378; 0x34F; 0x301; 0x62; 0xD; 0xA].
Proof.
  cbv zeta. split; [apply Forall_allowed_clean, Forall_forall; rewrite <- forallb_forall; vm_compute; reflexivity|]. split; [intros c u E; injection E as <- _; reflexivity|].
  split; [right; now exists [0x378; 0x301; 0x62]|]. split; [split; vm_compute; reflexivity|vm_compute; reflexivity].
Qed.
