(** Reading back what a writer stored, with unassigned characters: exactly when the reads
    are cut well (C60, C81). *)
From Coq Require Import NArith Arith List Bool Lia.
From Verif Require Import Base Ucd Norm Chars TextUtils NormFacts CharFacts SpecText TextFacts PipelineFacts IsoFacts KeepFacts
  Utf8 Utf8Facts Input Output ReadFacts ReadInv ReadSession SpecRead SpecWrite WriteProps ReadChunk SpecEscape EscapeFacts EscapeRun ReadProps ReadPieces SpecConv ConvFacts SpecPush PushProps
  FuzzProps SpecMore CanonProps SpecColour ColourProps SpecCut CutProps SpecAsk SpecCertain CertainFacts CertainProps SpecCat SpecWellCut WellCut StringProps SpecFrag FragProps.
Import ListNotations.
Local Open Scope N_scope.
Local Opaque pipeline.

Lemma translated_cut : forall nel lsps sc o, gives nel lsps sc o -> no_push sc -> bom_visible sc ->
  (o = pipeline (translate nel lsps (without_bom (stream_text sc))) <-> well_cut nel lsps sc).
Proof.
  intros nel lsps sc o G NP BV. destruct (all_replaced nel lsps (segments_read sc)) as [rss F]. rewrite <- (gives_well _ _ _ _ _ G BV F).
  enough (EQ : pushed_text rss = translate nel lsps (without_bom (stream_text sc))) by now rewrite EQ.
  unfold segments_read in F. rewrite (segments_no_push _ NP) in F. inversion F as [|? rs ? ? R F0]; subst. inversion F0; subst.
  unfold pushed_text, guarded. cbn [map concat]. rewrite !app_nil_r, (translate_replaced _ _ _ _ R), final_newline_eq. reflexivity.
Qed.
Lemma kept_cut : forall nel lsps sc o t, gives nel lsps sc o -> no_push sc -> bom_visible sc -> translate nel lsps (without_bom (stream_text sc)) = t -> string_ok t ->
  (o = t <-> preceded t /\ well_cut nel lsps sc).
Proof.
  intros nel lsps sc o t G NP BV ET OK. pose proof (translated_cut _ _ _ _ G NP BV) as W. rewrite ET in W.
  assert (P : o = t -> preceded t). { intros <-. destruct G as (z & rs & j & rest & H & E & <-). destruct (session_end _ _ _ _ _ _ _ H E) as (-> & _). apply converted_preceded. }
  split.
  - intros K. pose proof (P K) as PR. split; [exact PR|]. apply W. now rewrite ok_pipeline.
  - intros [PR K]. apply W in K. now rewrite ok_pipeline in K.
Qed.
Theorem stored_exact : forall bom cr nel lsps t sc o, string_ok t -> line_terminated t -> stream_text sc = stored bom cr t -> no_push sc -> bom_visible sc ->
  gives nel lsps sc o -> (o = t <-> preceded t /\ well_cut nel lsps sc).
Proof. intros bom cr nel lsps t sc o OK LT E NP BV G. apply kept_cut; auto. rewrite E. now apply stored_translate, ok_closes. Qed.
Theorem written_exact : forall (bom cr : bool) nel lsps ops rs w w' sc o,
  do_ops (new_writer cr false (mksink (if bom then [BOM] else []) [] false)) ops = (rs, w) -> Forall plain_op ops -> Forall line_op ops -> close w = (None, w') ->
  let t := concat (map op_text ops) in stream_text sc = emitted (inner w') -> no_push sc -> bom_visible sc -> gives nel lsps sc o ->
  (o = t <-> preceded t /\ well_cut nel lsps sc).
Proof.
  intros bom cr nel lsps ops rs w w' sc o H HP HL HC t E NP BV G.
  destruct (closed_lines_basic_text _ _ _ _ _ _ _ H HP HL HC) as [EM B]. destruct (closed_complete _ _ _ _ _ _ _ H HP HC) as (_ & L & _). fold t in EM, B, L.
  apply (stored_exact bom cr); auto; [now apply basic_text_spec|]. rewrite E, EM. reflexivity.
Qed.
Theorem colour_exact : forall (bom cr : bool) nel lsps ops rs w w' sc o,
  do_ops (new_writer cr true (mksink (if bom then [BOM] else []) [] false)) (map cop_op ops) = (rs, w) -> Forall cop_ok ops -> close w = (None, w') ->
  let v := concat (concat (map cop_pieces ops)) in string_ok v -> stream_text sc = emitted (inner w') -> no_push sc -> bom_visible sc -> gives nel lsps sc o ->
  (o = v <-> preceded v /\ well_cut nel lsps sc).
Proof.
  intros bom cr nel lsps ops rs w w' sc o H HO HC v OK E NP BV G. destruct (colour_closed _ _ _ _ _ _ _ H HO HC) as (EM & U & L & _).
  apply kept_cut; auto. rewrite E, EM. exact (coloured_translate bom cr nel lsps _ v U OK L).
Qed.
Theorem cut_colour_exact : forall (bom cr : bool) nel lsps xs rs w w' sc o,
  do_ops (new_writer cr true (mksink (if bom then [BOM] else []) [] false)) (map fop_op xs) = (rs, w) -> fops_ok [] xs -> close w = (None, w') ->
  let v := concat (concat (map fop_pieces xs)) in string_ok v -> stream_text sc = emitted (inner w') -> no_push sc -> bom_visible sc -> gives nel lsps sc o ->
  (o = v <-> preceded v /\ well_cut nel lsps sc).
Proof.
  intros bom cr nel lsps xs rs w w' sc o H HO HC v OK E NP BV G. destruct (cut_closed _ _ _ _ _ _ _ H HO HC) as (EM & U & L & _).
  apply kept_cut; auto. rewrite E, EM. exact (coloured_translate bom cr nel lsps _ v U OK L).
Qed.
