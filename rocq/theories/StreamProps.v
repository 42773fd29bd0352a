(** A written stream is the documented strict conversion. *)
From Coq Require Import NArith Arith List Bool Lia ZifyBool ZifyNat ZifyN.
From Verif Require Import Base Ucd UcdTables Norm Chars TextTables TextUtils UcdFacts NormFacts CharFacts DocTable SpecText TextFacts PipelineFacts DocFacts IsoFacts
  Utf8 Utf8Facts Input Output ReadFacts SpecRead SpecConv SpecWrite WriteFacts WriteProps Strings StringFacts ConcatFacts EdgeFacts SpecString StringProps LossyProps
  Fuzz FuzzProps SpecMore KeepFacts ConvFacts GuardFacts SpecStream.
Import ListNotations.
Local Open Scope N_scope.
Arguments N.add : simpl never.
Arguments N.leb : simpl never.
Arguments N.ltb : simpl never.
Arguments N.eqb : simpl never.
Local Opaque pipeline.

(** * Line ends as CR LF *)
Lemma iso_CR : forall a n h b, isolate_go n h (a ++ CR :: b) = isolate_go n h a ++ CR :: isolate_go false false b.
Proof.
  assert (A : is_assigned CR = true) by (vm_compute; reflexivity).
  induction a as [|c a IH]; intros n h b.
  - cbn [app isolate_go]. rewrite A. destruct n; reflexivity.
  - cbn [app isolate_go]. destruct (_ || _); cbn [app]; now rewrite IH.
Qed.
Lemma pipeline_CR : forall a b, pipeline (a ++ CR :: b) = pipeline a ++ CR :: pipeline b.
Proof. intros a b. rewrite !pipeline_conv. unfold isolate_unassigned. rewrite iso_CR. apply conv_split. exact boring_CR. Qed.
Lemma expand_lf : forall a b, expand (a ++ LF :: b) = expand a ++ CR :: LF :: expand b.
Proof. intros a b. rewrite expand_app. reflexivity. Qed.
Lemma pipeline_expand : forall s, pipeline (expand s) = expand (pipeline s).
Proof.
  intro s. remember (length s) as n eqn:L. assert (LE : (length s <= n)%nat) by lia. clear L. revert s LE. induction n as [|n IH]; intros s L.
  - destruct s; [|cbn in L; lia]. cbn. now rewrite pipeline_nil.
  - destruct (in_dec N.eq_dec LF s) as [K|K].
    + apply in_split in K. destruct K as (a & b & ->). rewrite app_length in L. cbn in L.
      rewrite expand_lf, pipeline_CR, pipeline_LF, expand_lf, !IH by lia.
      change (LF :: expand b) with ([] ++ LF :: expand b). rewrite pipeline_LF, pipeline_nil, IH by lia. reflexivity.
    + rewrite (expand_none s K), expand_none; [reflexivity|]. now apply pipeline_no_lf.
Qed.
Lemma pipeline_as_sent : forall cr s, pipeline (as_sent cr s) = as_sent cr (pipeline s).
Proof. intros [|] s; [apply pipeline_expand|reflexivity]. Qed.

(** * The documented form with CR LF *)
Lemma form_plain : forall i, is_assigned i = true -> i <> 0x34F -> forall a h b,
  isolated_form h (a ++ i :: b) = isolated_form h a ++ i :: isolated_form false b /\ tail_form (a ++ i :: b) = tail_form a ++ i :: isolated_form false b.
Proof.
  intros i A NI a. assert (E34 : (i =? 0x34F) = false) by now apply N.eqb_neq. induction a as [|c a IH]; intros h b.
  - cbn [app]. rewrite form_cons, A, E34. split; [reflexivity|]. unfold tail_form. rewrite E34, form_cons, A, E34. reflexivity.
  - assert (S : forall h, isolated_form h ((c :: a) ++ i :: b) = isolated_form h (c :: a) ++ i :: isolated_form false b).
    { intro h'. cbn [app]. rewrite !form_cons. destruct (is_assigned c).
      - rewrite (proj1 (IH (c =? 847) b)). reflexivity.
      - rewrite (proj2 (IH false b)). rewrite <- app_assoc. reflexivity. }
    split; [apply S|]. unfold tail_form. cbn [app]. destruct (c =? 847); [apply (S false)|]. cbn [app]. f_equal. apply (S true).
Qed.
Lemma form_clean : forall s, all_clean s -> all_clean (isolated_form false s).
Proof.
  intros s H. apply Forall_forall. intros x HX. apply (form_in s false x) in HX. destruct HX as [->|HX]; [exact clean_CGJ|]. rewrite Forall_forall in H. now apply H.
Qed.
Lemma form_expand : forall s, all_clean s -> nfc (stream_safe (isolated_form false (expand s))) = expand (nfc (stream_safe (isolated_form false s))).
Proof.
  intro s. remember (length s) as n eqn:L. assert (LE : (length s <= n)%nat) by lia. clear L. revert s LE. induction n as [|n IH]; intros s L C.
  - destruct s; [|cbn in L; lia]. change (expand []) with (@nil N). cbn [isolated_form]. change (stream_safe []) with (@nil N). rewrite nfc_nil. reflexivity.
  - destruct (in_dec N.eq_dec LF s) as [K|K].
    + apply in_split in K. destruct K as (a & b & ->). rewrite app_length in L. cbn in L. apply all_clean_app in C. destruct C as [CA CB]. inversion CB as [|? ? _ CB']; subst.
      assert (AL : is_assigned LF = true) by (vm_compute; reflexivity). assert (AC : is_assigned CR = true) by (vm_compute; reflexivity).
      assert (NL : LF <> 0x34F) by discriminate. assert (NC : CR <> 0x34F) by discriminate.
      rewrite expand_lf, (proj1 (form_plain CR AC NC _ _ _)), (proj1 (form_plain LF AL NL a _ _)).
      change (LF :: expand b) with ([] ++ LF :: expand b). rewrite (proj1 (form_plain LF AL NL [] _ _)). cbn [isolated_form app].
      rewrite !stream_safe_split by (exact boring_CR || exact boring_LF). change (LF :: isolated_form false (expand b)) with ([] ++ LF :: isolated_form false (expand b)).
      rewrite stream_safe_split by exact boring_LF. cbn [stream_safe stream_safe_go app].
      rewrite !nfc_app_inert by (apply (b_inert _ boring_CR) || apply (b_inert _ boring_LF)).
      change (stream_safe []) with (@nil N). cbn [app]. change (LF :: stream_safe (isolated_form false (expand b))) with ([] ++ LF :: stream_safe (isolated_form false (expand b))).
      rewrite nfc_app_inert by apply (b_inert _ boring_LF). rewrite nfc_nil, expand_lf, !IH by (auto; lia). reflexivity.
    + rewrite (expand_none s K), expand_none; [reflexivity|].
      assert (EC : nfc (stream_safe (isolated_form false s)) = conv (isolated_form false s)) by (unfold conv; now rewrite cjk_clean_id by now apply form_clean).
      rewrite EC. apply conv_no_kept; [reflexivity|]. intro I. apply (form_in s false) in I. destruct I as [I|I]; [discriminate|contradiction].
Qed.
Definition collapse (s : list N) : list N := filter (fun c => negb (c =? CR)) s.
Lemma collapse_expand : forall s, all_clean s -> collapse (expand s) = s.
Proof.
  unfold collapse, expand. induction 1 as [|c s H F IH]; [reflexivity|]. cbn [flat_map]. rewrite filter_app, IH. destruct (N.eqb_spec c 0xA) as [->|NE]; [reflexivity|].
  cbn [filter]. destruct (N.eqb_spec c CR) as [->|_]; [|reflexivity]. vm_compute in H. discriminate.
Qed.
Lemma documented_iff : forall bom cr s, strict_accepts s -> (if bom : bool then [0xFEFF] else []) ++ as_sent cr (pipeline s) = strict_stream_result bom cr s <-> closed_guards s.
Proof.
  intros bom cr s H. pose proof H as (_ & _ & A). apply Forall_allowed_clean in A. apply accepted_iff in H.
  assert (T : string_from_text is_basic_text s = TOk (pipeline s)) by (rewrite string_from_text_spec, H; reflexivity).
  rewrite <- (from_text_documented_exact _ _ _ T). unfold strict_result, strict_stream_result.
  assert (F : all_clean (nfc (stream_safe (isolated_form false s)))).
  { pose proof (form_clean s A) as FC. pose proof (pipeline_all_clean s A) as PC. clear - FC.
    assert (EC : nfc (stream_safe (isolated_form false s)) = conv (isolated_form false s)) by (unfold conv; now rewrite cjk_clean_id).
    rewrite EC. apply conv_clean. eapply Forall_impl; [|exact FC]. intros c HC. now apply clean_good. }
  split; intro E.
  - apply app_inv_head in E. destruct cr; cbn [as_sent] in E; [|exact E]. rewrite form_expand in E by exact A.
    apply (f_equal collapse) in E. rewrite !collapse_expand in E; auto. now apply pipeline_all_clean.
  - f_equal. destruct cr; cbn [as_sent]; [|exact E]. rewrite form_expand by exact A. congruence.
Qed.

(** * Writing pieces *)
Lemma pieces_pipeline : forall ps, line_pieces ps -> concat (map pipeline ps) = pipeline (concat ps) /\ concat ps <> [] /\ Forall (fun x => x <> []) ps.
Proof.
  induction 1 as [s H|s ps H (IH1 & IH2 & IH3)].
  - cbn. rewrite !app_nil_r. split; [reflexivity|]. split; [exact H|]. constructor; [exact H|constructor].
  - cbn [map concat]. rewrite IH1. split; [|split].
    + rewrite <- app_assoc. cbn [app]. change 0xA with LF. now rewrite (pipeline_lf_app s (concat ps)).
    + destruct s; discriminate.
    + constructor; [destruct s; discriminate|exact IH3].
Qed.
Lemma spec_pieces : forall cr ps d, Forall (fun x => x <> []) ps -> failed d = false -> outcomes d = [] ->
  let '(rs, d') := spec_ops cr d (map OpWriteStr ps) in
  (Forall (fun r => r = true) rs <-> Forall allowed (concat ps) /\ (fresh d = true -> starts_ok (concat ps))) /\
  (Forall (fun r => r = true) rs -> failed d' = false /\ outcomes d' = [] /\ text d' = text d ++ concat (map pipeline ps) /\ sent d' = sent d ++ as_sent cr (concat (map pipeline ps))).
Proof.
  intros cr ps. induction ps as [|x ps IH]; intros d NE F O.
  - cbn. split; [split; [intros _; split; [constructor|intros _ c t E; discriminate]|constructor]|]. intros _. rewrite app_nil_r. destruct cr; cbn; rewrite app_nil_r; auto.
  - inversion NE as [|? ? NX NE']; subst. cbn [map spec_ops concat spec_op]. unfold spec_write. rewrite F.
    assert (ST : starts_ok (x ++ concat ps) <-> starts_ok x) by (destruct x as [|c x]; [congruence|]; split; intros H c' t E; cbn in E; injection E as <- <-; [apply (H c (x ++ concat ps))|apply (H c x)]; reflexivity).
    destruct (forallb allowedb x) eqn:EA; cbn [negb].
    2:{ set (q := spec_ops _ _ _). destruct q as [rs d'']. split.
        - split; [intro H; inversion H; discriminate|]. intros [H _]. exfalso. apply Forall_app in H. destruct H as [H _].
          apply Forall_allowed_clean in H. apply all_allowed in H. congruence.
        - intro H. inversion H. discriminate. }
    assert (AX : Forall allowed x) by (now apply Forall_allowed_clean, all_allowed).
    unfold spec_send. rewrite O.
    destruct (fresh d && negb (opt_all is_basic_text_start (head_opt (pipeline x)))) eqn:EF.
    { apply andb_true_iff in EF. destruct EF as [E1 E2]. set (q := spec_ops _ _ _). destruct q as [rs d'']. split.
      - split; [intro H; inversion H; discriminate|]. intros [_ H]. exfalso. apply (proj1 ST), starts_ok_iff in H; [|exact E1]. rewrite pipeline_first, H in E2. discriminate.
      - intro H. inversion H. discriminate. }
    set (d1 := mkdoc _ _ _ _ _). specialize (IH d1 NE' eq_refl eq_refl). destruct (spec_ops cr d1 (map OpWriteStr ps)) as [rs d']. destruct IH as [IH1 IH2]. split.
    + split.
      * intro H. inversion H as [|? ? _ H']; subst. apply IH1 in H'. destruct H' as [H' _]. split; [now apply Forall_app|]. intro K. rewrite K in EF. cbn [andb] in EF.
        apply (proj2 ST), starts_ok_iff. rewrite pipeline_first in EF. now destruct (opt_all _ _).
      * intros [H _]. apply Forall_app in H. constructor; [reflexivity|]. apply IH1. split; [apply H|]. intro K. discriminate.
    + intro H. inversion H as [|? ? _ H']; subst. destruct (IH2 H') as (K1 & K2 & K3 & K4). split; [exact K1|]. split; [exact K2|].
      rewrite K3, K4. cbn [text sent d1 map concat]. rewrite as_sent_app, <- !app_assoc. auto.
Qed.
Theorem stream_written : forall bom cr ps rs w, line_pieces ps -> do_ops (new_writer cr false (below bom)) (map OpWriteStr ps ++ [OpClose]) = (rs, w) ->
  (Forall (fun r => r = None) rs <-> strict_stream (concat ps)) /\
  (Forall (fun r => r = None) rs -> emitted (inner w) = (if bom then [0xFEFF] else []) ++ as_sent cr (pipeline (concat ps))).
Proof.
  intros bom cr ps rs w HP E. destruct (pieces_pipeline ps HP) as (PP & NN & NE). unfold below in E.
  assert (PO : Forall plain_op (map OpWriteStr ps ++ [OpClose])).
  { apply Forall_app. split; [|constructor; [exact I|constructor]]. apply Forall_forall. intros o HO. apply in_map_iff in HO. destruct HO as (x & <- & _). exact I. }
  destruct (ops_refine _ cr _ _ (new_refines cr (if bom then [0xFEFF] else []) []) PO) as [RS R]. rewrite E in RS, R. cbn [fst snd] in RS, R.
  assert (SA : forall os d, spec_ops cr d (os ++ [OpClose]) = let '(rs, d') := spec_ops cr d os in let '(r, d'') := spec_close d' in (rs ++ [r], d'')).
  { clear. induction os as [|o os IH]; intro d; cbn [app spec_ops spec_op]; [destruct (spec_close d); reflexivity|]. destruct (spec_op cr d o) as [r d1].
    rewrite IH. destruct (spec_ops cr d1 os) as [rs d2]. destruct (spec_close d2). reflexivity. }
  rewrite SA in RS, R. pose proof (spec_pieces cr ps (new_doc (if bom then [0xFEFF] else []) []) NE eq_refl eq_refl) as K.
  destruct (spec_ops cr _ (map OpWriteStr ps)) as [rb d']. destruct K as [K1 K2]. destruct (spec_close d') as [r d''] eqn:EC. cbn [fst snd] in RS, R.
  assert (AN : Forall (fun r => r = None) rs <-> Forall (fun r => r = true) (rb ++ [r])).
  { rewrite <- RS. clear. rewrite Forall_map. split; intro H; (eapply Forall_impl; [|exact H]); intros [x|]; cbn; congruence. }
  rewrite AN. rewrite Forall_app. unfold strict_stream, strict_accepts. cbn [text sent new_doc app fresh] in K1, K2. rewrite PP in K2.
  assert (CL : Forall (fun r => r = true) rb -> (r = true <-> line_terminated (concat ps)) /\ (r = true -> sent d'' = sent d')).
  { intro H. destruct (K2 H) as (F & O & T & _). unfold spec_close in EC. rewrite F, T in EC. rewrite <- (pipeline_line (concat ps)).
    assert (NP : pipeline (concat ps) <> []) by now apply pipeline_nonnil.
    destruct (pipeline (concat ps)) as [|c u _] using rev_ind; [congruence|]. rewrite last_opt_snoc in EC. destruct (N.eqb_spec c 0xA) as [->|NC].
    - unfold spec_call in EC. rewrite O in EC. injection EC as <- <-. split; [|reflexivity]. split; [|reflexivity]. intros _. right. eauto.
    - injection EC as <- <-. split; [|discriminate]. split; [discriminate|]. intros [Z|[v Z]]; [destruct u; discriminate|]. apply app_inj_tail in Z. destruct Z. contradiction. }
  split.
  - split.
    + intros [H1 H2]. pose proof (Forall_inv H2) as HR. destruct (CL H1) as [C1 _]. apply C1 in HR. apply K1 in H1. destruct H1 as [A S]. split; [|exact HR].
      split; [now apply S|]. split; [|exact A]. intros t c Z. destruct HR as [HR|[u HR]]; [congruence|]. rewrite HR in Z. apply app_inj_tail in Z. destruct Z as [_ <-]. vm_compute. reflexivity.
    + intros [(S & _ & A) L]. assert (H : Forall (fun r => r = true) rb) by (apply K1; auto). split; [exact H|]. constructor; [|constructor]. now apply CL.
  - intros [H1 H2]. pose proof (Forall_inv H2) as HR. destruct (CL H1) as [_ C2]. destruct R as (_ & _ & _ & -> & _). rewrite C2 by exact HR. apply K2. exact H1.
Qed.
Theorem bom_written : new_bom_writer (below false) = Some (new_writer false false (below true)).
Proof. reflexivity. Qed.
