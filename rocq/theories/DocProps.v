(** The text predicates against the documented definitions. *)
From Coq Require Import NArith Arith List Bool Lia ZifyBool ZifyNat ZifyN.
From Verif Require Import Base Ucd UcdTables Norm Chars TextTables TextUtils UcdFacts NormFacts CharFacts DocTable SpecText TextFacts PipelineFacts DocFacts IsoFacts
  Utf8 Utf8Facts Input Output ReadFacts ReadInv ReadSession SpecRead ReadChunk SpecEscape EscapeFacts EscapeRun ReadProps KeepFacts ReadPieces SpecConv ConvFacts
  SpecWrite WriteFacts WriteProps Strings StringFacts ConcatFacts EdgeFacts SpecString StringProps SpecMore GuardFacts GcbTable SpecDoc.
Import ListNotations.
Local Open Scope N_scope.
Arguments N.add : simpl never.
Arguments N.leb : simpl never.
Arguments N.ltb : simpl never.
Arguments N.eqb : simpl never.
Local Opaque pipeline.

(** * Characters *)
Definition gcb_start : list (N * N) := gcb_zwj ++ gcb_spacing_mark ++ gcb_extend.
Definition code_start : list (N * N) := [(ZWJ, ZWJ)] ++ tbl_grapheme_extend_not_cgj ++ tbl_emoji_modifier.
Transparent ccc cd kd compose qc_nfc is_public_assigned cjk_variant.
Lemma chk_gcb_start : ranges_all (fun c => negb (is_basic_text_start c) || (c =? 0x34F)) gcb_start = true.
Proof. vm_compute. reflexivity. Qed.
Lemma chk_code_start : ranges_all (fun c => in_ranges c gcb_start && negb (c =? 0x34F)) code_start = true.
Proof. vm_compute. reflexivity. Qed.
Lemma chk_code_spacing : ranges_all (fun c => in_ranges c tbl_spacing_mark_exceptions || (in_ranges c gcb_start && negb (c =? 0x34F))) tbl_gc_spacing_mark = true.
Proof. vm_compute. reflexivity. Qed.
Lemma chk_ascii_ccc : ranges_all (fun c => ccc c =? 0) [(0, 0x7F)] = true.
Proof. vm_compute. reflexivity. Qed.
Lemma chk_gcb_end : ranges_all (fun c => negb (is_basic_text_end c) || in_range c 0x890 0x891) (gcb_zwj ++ gcb_prepend) = true.
Proof. vm_compute. reflexivity. Qed.
Lemma chk_code_end : ranges_all (fun c => in_ranges c (gcb_zwj ++ gcb_prepend)) ([(ZWJ, ZWJ)] ++ tbl_preceding_repha ++ tbl_consonant_prefixed ++ tbl_prepended_concatenation_mark) = true.
Proof. vm_compute. reflexivity. Qed.
Lemma chk_start_cgj : is_basic_text_start 0x34F = true. Proof. vm_compute. reflexivity. Qed.
Lemma chk_end_890 : is_basic_text_end 0x890 = true /\ is_basic_text_end 0x891 = true. Proof. split; vm_compute; reflexivity. Qed.
Lemma chk_lo_am : in_ranges 0xE33 gcb_start = true /\ in_ranges 0xEB3 gcb_start = true. Proof. split; vm_compute; reflexivity. Qed.
Global Opaque ccc cd kd compose qc_nfc is_public_assigned cjk_variant.

Theorem start_documented : forall c, is_basic_text_start c = true <-> ~ doc_non_starter c.
Proof.
  intro c. assert (G : is_basic_text_start c = false <-> doc_non_starter c).
  { unfold doc_non_starter. fold gcb_start. split.
    - intro H. unfold is_basic_text_start in H. apply andb_false_iff in H. destruct H as [H|H].
      2:{ right. apply negb_false_iff in H. unfold is_spacing_mark_plus in H. apply orb_prop in H. destruct H as [H|H].
          - apply orb_prop in H. pose proof chk_lo_am. destruct H as [H|H]; apply N.eqb_eq in H; subst c; split; try tauto; discriminate.
          - apply andb_prop in H. destruct H as [H1 H2]. apply (ranges_all_spec _ _ _ chk_code_spacing) in H1. cbn beta in H1. apply negb_true_iff in H2. rewrite H2 in H1.
            cbn [orb] in H1. apply andb_prop in H1. destruct H1 as [H1 H3]. split; [exact H1|]. apply negb_true_iff in H3. now apply N.eqb_neq. }
      apply andb_false_iff in H. destruct H as [H|H].
      2:{ right. apply negb_false_iff in H. assert (K : in_ranges c code_start = true) by (unfold code_start; rewrite !in_ranges_app, H; now rewrite !orb_true_r).
          apply (ranges_all_spec _ _ _ chk_code_start) in K. cbn beta in K. apply andb_prop in K. destruct K as [K1 K2]. split; [exact K1|]. apply negb_true_iff in K2. now apply N.eqb_neq. }
      apply andb_false_iff in H. destruct H as [H|H].
      2:{ right. apply negb_false_iff in H. assert (K : in_ranges c code_start = true) by (unfold code_start; rewrite !in_ranges_app, H; now rewrite !orb_true_r).
          apply (ranges_all_spec _ _ _ chk_code_start) in K. cbn beta in K. apply andb_prop in K. destruct K as [K1 K2]. split; [exact K1|]. apply negb_true_iff in K2. now apply N.eqb_neq. }
      apply andb_false_iff in H. destruct H as [H|H].
      + left. unfold is_starter in H. apply orb_false_iff in H. destruct H as [_ H]. now apply N.eqb_neq.
      + right. apply negb_false_iff in H. assert (K : in_ranges c code_start = true).
        { unfold code_start. rewrite in_ranges_app. apply N.eqb_eq in H. subst c. reflexivity. }
        apply (ranges_all_spec _ _ _ chk_code_start) in K. cbn beta in K. apply andb_prop in K. destruct K as [K1 K2]. split; [exact K1|]. apply negb_true_iff in K2. now apply N.eqb_neq.
    - intros [H|[H1 H2]].
      + destruct (is_basic_text_start c) eqn:E; [|reflexivity]. apply start_ccc in E. contradiction.
      + apply (ranges_all_spec _ _ _ chk_gcb_start) in H1. cbn beta in H1. apply N.eqb_neq in H2. rewrite H2, orb_false_r in H1. now apply negb_true_iff in H1. }
  rewrite <- G. destruct (is_basic_text_start c); split; congruence.
Qed.
Theorem end_documented : forall c, is_basic_text_end c = true <-> ~ doc_non_ender c \/ c = 0x890 \/ c = 0x891.
Proof.
  intro c. split.
  - intro H. unfold doc_non_ender. destruct (in_ranges c (gcb_zwj ++ gcb_prepend)) eqn:E; [|left; discriminate]. right.
    apply (ranges_all_spec _ _ _ chk_gcb_end) in E. cbn beta in E. rewrite H in E. cbn in E. unfold in_range in E. lia.
  - intros [H|[->| ->]]; try apply chk_end_890. destruct (is_basic_text_end c) eqn:E; [reflexivity|]. exfalso. apply H. unfold doc_non_ender.
    apply (ranges_all_spec _ _ _ chk_code_end). rewrite !in_ranges_app. cbn [in_ranges existsb fst snd]. rewrite in_range_single. unfold is_basic_text_end in E.
    fold (in_ranges c tbl_preceding_repha). destruct (c =? ZWJ); [reflexivity|].
    destruct (in_ranges c tbl_preceding_repha), (in_ranges c tbl_consonant_prefixed), (in_ranges c tbl_prepended_concatenation_mark); cbn in *; auto.
Qed.

(** * Strings *)
Theorem documented_accepted : forall s, documented_string s -> is_basic_text s = true.
Proof.
  intros s ((H1 & H2) & H3 & H4 & _ & H5). apply basic_text_spec. split; [split; [exact H2|split; assumption]|]. split.
  - intros c t E. apply start_documented. exact (H3 _ _ E).
  - intros t c E. apply end_documented. left. exact (H4 _ _ E).
Qed.
Theorem accepted_documented : forall s, documented_string s <-> is_basic_text s = true /\ isolated s /\ (forall t c, s = t ++ [c] -> c <> 0x890 /\ c <> 0x891).
Proof.
  intro s. split.
  - intro H. split; [now apply documented_accepted|]. destruct H as (_ & _ & H4 & H & _). split; [exact H|]. intros t c E. specialize (H4 _ _ E). split; intros ->; apply H4; vm_compute; reflexivity.
  - intros (H & HI & HE). apply basic_text_spec in H. destruct H as ((H2 & H1 & H5) & H3 & H4). split; [split; assumption|]. split; [|split; [|split; assumption]].
    + intros c t E. apply start_documented. exact (H3 _ _ E).
    + intros t c E. specialize (H4 _ _ E). apply end_documented in H4. destruct (HE _ _ E). tauto.
Qed.

(** * Streams *)
Lemma unguarded_app_nl : forall s, unguarded_text s -> unguarded_text (s ++ [0xA]).
Proof.
  intros s H a c b E. destruct b as [|x b] using rev_ind.
  - change (a ++ [0x34F; c]) with (a ++ [0x34F] ++ [c]) in E. rewrite app_assoc in E. apply app_inj_tail in E. destruct E as [_ <-]. vm_compute. reflexivity.
  - clear IHb. replace (a ++ 0x34F :: c :: b ++ [x]) with ((a ++ 0x34F :: c :: b) ++ [x]) in E by now rewrite <- app_assoc. apply app_inj_tail in E. destruct E as [E _]. exact (H _ _ _ E).
Qed.
Lemma unguarded_app_cgj : forall s, unguarded_text s -> unguarded_text (s ++ [0x34F]).
Proof.
  intros s H a c b E. destruct b as [|x b] using rev_ind.
  - change (a ++ [0x34F; c]) with (a ++ [0x34F] ++ [c]) in E. rewrite app_assoc in E. apply app_inj_tail in E. destruct E as [_ <-]. vm_compute. reflexivity.
  - clear IHb. replace (a ++ 0x34F :: c :: b ++ [x]) with ((a ++ 0x34F :: c :: b) ++ [x]) in E by now rewrite <- app_assoc. apply app_inj_tail in E. destruct E as [E _]. exact (H _ _ _ E).
Qed.
Lemma unguarded_guard_end : forall s, unguarded_text s -> unguarded_text (guard_end s).
Proof. intros s H. unfold guard_end. destruct (last_opt s) as [c|]; [|exact H]. destruct (is_basic_text_end c); [exact H|now apply unguarded_app_cgj]. Qed.
Lemma unguarded_guard_start : forall s, unguarded_text s -> unguarded_text (guard_start s).
Proof.
  intros s H. unfold guard_start. destruct s as [|x s]; [exact H|]. destruct (is_basic_text_start x) eqn:E; [exact H|].
  intros a c b EA. destruct a as [|y a]; cbn [app] in EA.
  - apply (f_equal (fun l => nth 1 l 0)) in EA. cbn in EA. subst c. now apply nonstart_assigned.
  - apply (f_equal (@tl N)) in EA. cbn in EA. exact (H _ _ _ EA).
Qed.
Theorem delivered_isolated : forall nel lsps script sizes out j rest rs, reads (new_input nel lsps) script sizes = (out, j, rest) -> reached_end out ->
  no_push script -> bom_visible script -> replaced true (char_rep nel lsps) (without_bom (stream_text script)) rs -> unguarded_text (concat rs) -> isolated (delivered out).
Proof.
  intros nel lsps script sizes out j rest rs H E NP BV HR U. rewrite (session_conversion nel lsps script sizes out j rest rs H E NP BV HR U).
  unfold stream_conversion. apply pipeline_isolated. apply unguarded_guard_start, unguarded_guard_end in U.
  destruct (needs_newline rs); [now apply unguarded_app_nl|now rewrite app_nil_r].
Qed.
Lemma line_terminated_ends : forall s t c, line_terminated s -> s = t ++ [c] -> c = 0xA.
Proof.
  intros s t c [->|[u ->]] E; [now destruct t|]. now apply app_inj_tail in E.
Qed.
Theorem stream_documented : forall s, string_ok s -> line_terminated s -> documented_stream s <-> isolated s.
Proof.
  intros s H L. unfold documented_stream. rewrite accepted_documented. split; [tauto|]. intro HI. split; [|exact L]. split; [now apply basic_text_spec|]. split; [exact HI|].
  intros t c E. apply (line_terminated_ends _ _ _ L) in E. subst c. split; discriminate.
Qed.
Theorem session_documented_iff : forall nel lsps script sizes out j rest, reads (new_input nel lsps) script sizes = (out, j, rest) -> reached_end out ->
  documented_stream (delivered out) <-> isolated (delivered out).
Proof. intros nel lsps script sizes out j rest H E. destruct (session_is_text_buffers _ _ _ _ _ _ _ H E). now apply stream_documented. Qed.
Theorem session_documented : forall nel lsps script sizes out j rest rs, reads (new_input nel lsps) script sizes = (out, j, rest) -> reached_end out ->
  no_push script -> bom_visible script -> replaced true (char_rep nel lsps) (without_bom (stream_text script)) rs -> unguarded_text (concat rs) -> documented_stream (delivered out).
Proof. intros. eapply session_documented_iff; eauto. eapply delivered_isolated; eauto. Qed.
Theorem from_text_is_documented : forall check s t, string_from_text check s = TOk t ->
  documented_string t <-> closed_guards s /\ (forall u c, t = u ++ [c] -> c <> 0x890 /\ c <> 0x891).
Proof.
  intros check s t H. rewrite accepted_documented. pose proof (from_text_ok _ _ _ H) as OK. apply basic_text_spec in OK.
  rewrite string_from_text_spec in H. destruct (accepted s) eqn:E; [|discriminate]. injection H as H. rewrite <- (pipeline_isolated_exact s), H. tauto.
Qed.
Theorem documented_refuted : exists s, is_basic_text s = true /\ ~ documented_string s /\ isolated s.
Proof.
  exists [0x61; 0x890]. split; [vm_compute; reflexivity|]. split.
  - intro H. apply accepted_documented in H. destruct H as (_ & _ & H). destruct (H [0x61] 0x890 eq_refl). congruence.
  - replace [0x61; 0x890] with (isolate_unassigned [0x61; 0x890]) by (vm_compute; reflexivity). apply isolated_foll. vm_compute. reflexivity.
Qed.
Theorem documented_isolated_refuted : exists s, is_basic_text s = true /\ ~ isolated s /\ ~ documented_string s.
Proof.
  exists [0x61; 0x378; 0x62]. assert (H : ~ isolated [0x61; 0x378; 0x62]).
  { intro H. destruct (H [0x61] 0x378 [0x62] eq_refl eq_refl) as [[a E] _]. destruct a as [|x [|y a]]; discriminate. }
  split; [vm_compute; reflexivity|]. split; [exact H|]. intro D. apply accepted_documented in D. tauto.
Qed.
