(** std::io::copy whatever fails. *)
From Coq Require Import NArith Arith List Bool Lia ZifyBool ZifyNat ZifyN.
From Verif Require Import Base Ucd UcdTables Norm Chars TextTables TextUtils UcdFacts NormFacts CharFacts DocTable SpecText TextFacts PipelineFacts DocFacts IsoFacts
  Utf8 Utf8Facts Input Output ReadFacts ReadInv ReadSession SpecRead ScalarFacts ReadChunk SpecEscape EscapeFacts EscapeRun ReadProps KeepFacts ReadPieces SpecConv ConvFacts ReadMore
  SpecWrite WriteFacts WriteProps Strings StringFacts EdgeFacts Copy CopyProps CutProps StdIo SpecStd StdProps.
Import ListNotations.
Local Open Scope N_scope.
Arguments N.add : simpl never.
Arguments N.leb : simpl never.
Arguments N.ltb : simpl never.
Arguments N.eqb : simpl never.
Local Opaque pipeline.

(** Writing strings is writing their conversions as texts. *)
Lemma strs_as_texts : forall cr ps d, Forall (fun t => forallb allowedb t = true) ps ->
  spec_ops cr d (map OpWriteStr ps) = spec_ops cr d (map OpWriteText (map pipeline ps)).
Proof.
  intros cr. induction ps as [|t ps IH]; intros d H; [reflexivity|]. inversion H as [|? ? H1 H2]; subst. cbn [map spec_ops spec_op].
  unfold spec_write, spec_write_text. rewrite H1. cbn [negb]. destruct (if failed d then _ else _) as [b d1]. now rewrite IH.
Qed.
Lemma texts_prec : forall rs h, prec_ok h (delivered rs) = true -> Forall (fun t => exists h, prec_ok h t = true) (texts rs).
Proof.
  induction rs as [|[r cs] rs IH]; intros h H; [constructor|]. cbn [delivered flat_map snd] in H. fold (delivered rs) in H.
  assert (A : exists h', prec_ok h' cs = true).
  { pose proof (prec_pieces [cs; delivered rs] h) as K. cbn [concat] in K. rewrite app_nil_r in K. specialize (K H). now inversion K. }
  destruct (prec_slice _ _ _ H) as [h2 H2]. cbn [texts flat_map fst snd]. fold (texts rs). destruct r as [[|n] s| |]; cbn [app]; eauto.
Qed.
Theorem std_copy_any : forall nel lsps script blen cr p o fuel res j rest w, script_scalars script ->
  std_copy fuel (new_input nel lsps) script (new_writer cr false (mksink p o false)) blen 0 = Some (res, j, rest, w) ->
  exists k rs, reads (new_input nel lsps) script (repeat blen k) = (rs, j, rest) /\
    prefix_of (emitted (inner w)) (p ++ as_sent cr (flat_map recopied (texts_read rs))) /\
    match res with
    | CopyOk n => reached_end rs /\ n = str_len (received rs) /\ emitted (inner w) = p ++ as_sent cr (flat_map recopied (texts_read rs))
    | CopyRead => emitted (inner w) = p ++ as_sent cr (flat_map recopied (texts_read rs))
    | CopyWrite _ => True
    end.
Proof.
  intros nel lsps script blen cr p o fuel res j rest w SC EC.
  destruct (std_trace _ _ _ _ _ _ _ _ _ _ (wf_new nel lsps) (scal_new nel lsps) SC EC) as (k & rs & outs & R & D & T).
  destruct (texts_received _ _ _ _ _ _ (wf_new nel lsps) R) as [TR TN]. destruct (delivered_substr _ _ _ _ _ _ _ R) as [SS ST].
  destruct (texts_read_texts _ _ _ _ _ _ (wf_new nel lsps) R) as [RT1 RT2].
  pose proof (texts_plain _ SS TN) as PL. rewrite Forall_map in PL. cbn [plain_op] in PL.
  assert (PR : preceded (delivered rs)).
  { destruct (delivered_prefix _ _ _ _ _ _ _ R) as [more E]. apply (preceded_prefix _ more). rewrite <- E. apply converted_preceded. }
  apply prec_ok_spec in PR. apply texts_prec in PR.
  assert (FM : concat (map pipeline (texts rs)) = flat_map recopied (texts rs)).
  { clear -PL PR. induction (texts rs) as [|t ps IH]; [reflexivity|]. inversion PL as [|? ? [NE SB] PL2]; inversion PR as [|? ? [h HP] PR2]; subst. cbn [flat_map map concat].
    rewrite (pipeline_recopied t h SB HP), IH; auto. }
  assert (AL : Forall (fun t => forallb allowedb t = true) (texts rs)).
  { eapply Forall_impl; [|exact PL]. intros t [NE SB]. apply all_allowed. now apply substr_ok_iff in SB. }
  assert (PO : Forall plain_op (map OpWriteStr (texts rs))) by (apply Forall_map; apply Forall_forall; intros; exact I).
  destruct (ops_refine _ cr _ _ (new_refines cr p o) PO) as [O1 O2]. rewrite D in O1, O2. rewrite (strs_as_texts cr _ _ AL) in O1, O2. cbn [fst snd] in O1, O2.
  destruct (spec_ops cr (new_doc p o) (map OpWriteText (map pipeline (texts rs)))) as [bs d'] eqn:ES. cbn [fst snd] in O1, O2.
  destruct (spec_pieces_prefix cr (map pipeline (texts rs)) (new_doc p o) _ _ eq_refl ES) as (P1 & P2). rewrite FM in P1, P2. cbn [new_doc sent] in P1, P2.
  destruct O2 as (_ & _ & _ & EM & _). exists k, rs. rewrite RT1. split; [exact R|]. rewrite EM. split; [exact P1|].
  assert (ALL : Forall (eq None) outs -> sent d' = p ++ as_sent cr (flat_map recopied (texts rs))).
  { intro K. apply P2. rewrite <- O1. clear -K. induction K; constructor; [now subst|assumption]. }
  destruct res as [n| |e]; cbn [trace_ok] in T; auto.
  - destruct T as ((rs' & ->) & T2 & ->). split; [now exists rs', 0%nat, []|]. split; [reflexivity|auto].
  - destruct T as [T _]. auto.
Qed.
