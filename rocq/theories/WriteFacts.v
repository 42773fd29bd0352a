(** The writer without colours refines the specification in SpecWrite.v. *)
From Coq Require Import NArith Arith List Bool Lia ZifyBool ZifyNat ZifyN.
From Verif Require Import Base Ucd UcdTables Norm Chars TextTables TextUtils UcdFacts NormFacts CharFacts DocTable SpecText TextFacts PipelineFacts
  IsoFacts KeepFacts Utf8 Output SpecWrite.
Import ListNotations.
Local Open Scope N_scope.
Arguments N.add : simpl never.
Arguments N.leb : simpl never.
Arguments N.ltb : simpl never.
Arguments N.eqb : simpl never.
Local Opaque pipeline.

Lemma allowedb_clean : forall c, allowedb c = clean c.
Proof.
  intro c. unfold allowedb. destruct (doc_lookup c) eqn:E.
  - symmetry. apply not_true_is_false. intro H. apply allowed_clean in H. unfold allowed in H. congruence.
  - symmetry. now apply allowed_clean.
Qed.
Lemma all_allowed : forall s, forallb allowedb s = true <-> all_clean s.
Proof.
  intro s. rewrite forallb_forall. rewrite Forall_forall. split; intros H c HC; specialize (H c HC); now rewrite allowedb_clean in *.
Qed.
Lemma clean_cat : forall c, clean c = true -> categorize1 c = c.
Proof. intros c H. unfold clean, check_ok, categorize1 in *. destruct (check_basic_text_char c); [discriminate|reflexivity]. Qed.
Lemma clean_categorize : forall s, all_clean s -> categorize s = s.
Proof. induction 1 as [|c s H F IH]; [reflexivity|]. unfold categorize in *. cbn [map]. now rewrite clean_cat, IH. Qed.
Lemma clean_not : forall c, clean c = true -> c <> SUB /\ c <> ESC.
Proof. intros c H. split; intros ->; vm_compute in H; discriminate. Qed.
Lemma clean_notin : forall s, all_clean s -> ~ In SUB s /\ ~ In ESC s.
Proof. intros s H. rewrite Forall_forall in H. split; intro K; apply H in K; vm_compute in K; discriminate. Qed.

(** The quick path and the slow path agree on accepted text. *)
Lemma categorize_fix_quick : forall s, is_nfc_stream_safe_quick s = Yes -> forallb is_public_assigned s = true ->
  converted s = categorize s.
Proof. intros s H1 H2. unfold converted. now rewrite H1, H2. Qed.
Lemma converted_clean : forall s, all_clean s -> converted s = pipeline s.
Proof.
  intros s H. unfold converted. rewrite (clean_categorize s H). destruct (is_nfc_stream_safe_quick s) eqn:E; cbn [andb]; try reflexivity.
  destruct (forallb is_public_assigned s) eqn:F; [|reflexivity]. symmetry. now apply pipeline_quick.
Qed.
Lemma pipeline_all_clean : forall s, all_clean s -> all_clean (pipeline s).
Proof. intros s H. apply pipeline_clean. eapply Forall_impl; [|exact H]. intros c HC. now apply clean_good. Qed.

(** Text with a forbidden character shows a SUB or ESC to the state machine. *)
Lemma kept_SUB : kept_char SUB = true. Proof. reflexivity. Qed.
Lemma kept_ESC : kept_char ESC = true. Proof. reflexivity. Qed.
Lemma pipeline_in : forall x s, kept_char x = true -> In x s <-> In x (pipeline s).
Proof. intros x s H. rewrite !(count_occ_In N.eq_dec), (pipeline_count _ _ H). tauto. Qed.
Lemma converted_in : forall x s, kept_char x = true -> In x (converted s) <-> In x (categorize s).
Proof.
  intros x s H. unfold converted. destruct (_ && _); [tauto|]. symmetry. now apply pipeline_in.
Qed.
Lemma dirty_in : forall s, ~ all_clean s -> In SUB (categorize s) \/ In ESC (categorize s).
Proof.
  induction s as [|c s IH]; intro H; [elim H; constructor|]. unfold categorize. cbn [map]. fold (categorize s). destruct (clean c) eqn:E.
  - destruct IH as [K|K]; [intro K; apply H; now constructor|left; now right|right; now right].
  - unfold clean, check_ok, categorize1 in *. destruct (check_basic_text_char c); [left; now left|]. cbn in E. right. left.
    apply negb_false_iff, N.eqb_eq in E. exact E.
Qed.
Lemma all_clean_dec : forall s, all_clean s \/ ~ all_clean s.
Proof. intro s. destruct (forallb allowedb s) eqn:E; [left; now apply all_allowed|right; intro H; apply all_allowed in H; congruence]. Qed.

(** * The state machine *)
Definition after (cs : list N) (st : wstate) : wstate := match cs with [] => st | _ => WGround (text_ground cs) end.
Lemma text_ground_app : forall a b, b <> [] -> text_ground (a ++ b) = text_ground b.
Proof.
  intros a b H. destruct b as [|x b] using rev_ind; [congruence|]. unfold text_ground. now rewrite app_assoc, !last_opt_snoc.
Qed.
Lemma after_app : forall a b st, after (a ++ b) st = after b (after a st).
Proof.
  intros a b st. destruct b as [|x b]; [now rewrite app_nil_r|]. cbn [after].
  destruct (a ++ x :: b) eqn:E; [destruct a; discriminate E|]. cbn [after]. rewrite <- E. now rewrite text_ground_app.
Qed.
Lemma after_ground : forall t st, (exists g, st = WGround g) -> exists g, after t st = WGround g.
Proof. intros [|c t] st H; cbn; eauto. Qed.

Lemma sm_clean : forall cs w g, ansi w = false -> wst w = WGround g -> ~ In SUB cs -> ~ In ESC cs ->
  sm_chars w cs = (None, set_buf (set_wst w (after cs (wst w))) (buffer w ++ cs)).
Proof.
  induction cs as [|c cs IH]; intros w g HA HW HS HE.
  - cbn. rewrite app_nil_r. now destruct w.
  - cbn [sm_chars]. unfold sm_char. rewrite HW, HA, andb_false_r.
    destruct (c =? LF) eqn:E1; [|destruct (c =? SUB) eqn:E2; [exfalso; apply HS; left; lia|destruct (c =? ESC) eqn:E3; [exfalso; apply HE; left; lia|]]];
      (erewrite IH; [|exact HA|reflexivity|intro K; apply HS; now right|intro K; apply HE; now right]);
      unfold set_buf, set_wst; cbn [buffer crlf expect ansi wst escseq inner]; rewrite <- app_assoc; cbn [app]; do 2 f_equal.
    + apply N.eqb_eq in E1. now subst c.
    + apply N.eqb_eq in E1. subst c. change (LF :: cs) with ([LF] ++ cs). now rewrite after_app.
    + change (c :: cs) with ([c] ++ cs). rewrite after_app. f_equal. cbn. unfold text_ground. cbn. now rewrite E1.
Qed.
Lemma sm_dirty : forall cs w g, ansi w = false -> wst w = WGround g -> In SUB cs \/ In ESC cs ->
  exists e b, sm_chars w cs = (Some e, set_buf (prepare_failure w) b).
Proof.
  induction cs as [|c cs IH]; intros w g HA HW H; [destruct H as [[]|[]]|].
  cbn [sm_chars]. unfold sm_char. rewrite HW, HA, andb_false_r.
  destruct (c =? LF) eqn:E1.
  - edestruct (IH (set_buf (set_wst w (WGround Newline)) (buffer w ++ [LF]))) as (e & b & E); [exact HA|reflexivity| |].
    + unfold LF, SUB, ESC in *. destruct H as [[H|H]|[H|H]]; try lia; auto.
    + exists e, b. exact E.
  - destruct (c =? SUB) eqn:E2; [do 2 eexists; destruct w; reflexivity|].
    destruct (c =? ESC) eqn:E3; [do 2 eexists; destruct w; reflexivity|].
    edestruct (IH (set_buf (set_wst w (WGround (ground_of c))) (buffer w ++ [c]))) as (e & b & E); [exact HA|reflexivity| |].
    + destruct H as [[H|H]|[H|H]]; try lia; auto.
    + exists e, b. exact E.
Qed.
Lemma state_machine_ok : forall s w g, ansi w = false -> wst w = WGround g -> all_clean s ->
  state_machine w s = (None, set_buf (set_wst w (after (pipeline s) (wst w))) (buffer w ++ pipeline s)).
Proof.
  intros s w g HA HW H. unfold state_machine. rewrite converted_clean by exact H.
  pose proof (clean_notin _ (pipeline_all_clean _ H)) as [N1 N2]. now apply (sm_clean _ _ g).
Qed.
Lemma state_machine_bad : forall s w g, ansi w = false -> wst w = WGround g -> ~ all_clean s ->
  exists e b, state_machine w s = (Some e, set_buf (prepare_failure w) b).
Proof.
  intros s w g HA HW H. unfold state_machine. apply (sm_dirty _ _ g HA HW).
  destruct (dirty_in s H) as [K|K]; [left; apply (converted_in SUB _ kept_SUB)|right; apply (converted_in ESC _ kept_ESC)]; exact K.
Qed.

(** * Line ends *)
Lemma split_lf_none : forall s, ~ In LF s -> split_lf s = [s].
Proof.
  induction s as [|c s IH]; intro H; [reflexivity|]. cbn [split_lf]. destruct (c =? LF) eqn:E; [exfalso; apply H; left; lia|].
  rewrite IH; [reflexivity|]. intro K. apply H. now right.
Qed.
Lemma split_lf_cons : forall a b, ~ In LF a -> split_lf (a ++ LF :: b) = a :: split_lf b.
Proof.
  induction a as [|c a IH]; intros b H; cbn [app split_lf]; [now rewrite N.eqb_refl|].
  destruct (c =? LF) eqn:E; [exfalso; apply H; left; lia|]. rewrite IH; [reflexivity|]. intro K. apply H. now right.
Qed.
Lemma split_lf_nonnil : forall s, exists x l, split_lf s = x :: l.
Proof. induction s as [|c s IH]; cbn; [eauto|]. destruct (c =? LF); [eauto|]. destruct IH as (x & l & ->). eauto. Qed.
Lemma first_lf : forall s, In LF s -> exists a b, s = a ++ LF :: b /\ ~ In LF a.
Proof.
  induction s as [|c s IH]; intro H; [destruct H|]. destruct (N.eq_dec c LF) as [->|E]; [exists [], s; auto|].
  destruct H as [H|H]; [congruence|]. destruct (IH H) as (a & b & -> & K). exists (c :: a), b. split; [reflexivity|]. intros [L|L]; auto.
Qed.
Lemma expand_app : forall a b, expand (a ++ b) = expand a ++ expand b.
Proof. intros. apply flat_map_app. Qed.
Lemma expand_none : forall s, ~ In LF s -> expand s = s.
Proof.
  induction s as [|c s IH]; intro H; [reflexivity|]. cbn. destruct (c =? 10) eqn:E; [exfalso; apply H; left; unfold LF; lia|].
  cbn [app]. f_equal. apply IH. intro K. apply H. now right.
Qed.
Lemma pipeline_no_lf : forall s, ~ In LF s -> ~ In LF (pipeline s).
Proof. intros s H K. apply H. now apply (pipeline_in LF s eq_refl). Qed.

Lemma all_clean_app : forall a b, all_clean (a ++ b) <-> all_clean a /\ all_clean b.
Proof. intros. apply Forall_app. Qed.
Lemma crlf_segs_ok : forall n s w g, (length s <= n)%nat -> ansi w = false -> wst w = WGround g -> all_clean s ->
  crlf_segs w (split_lf s) = (None, set_buf (set_wst w (after (pipeline s) (wst w))) (buffer w ++ expand (pipeline s))).
Proof.
  induction n as [|n IH]; intros s w g HL HA HW HC.
  - destruct s; [|cbn in HL; lia]. cbn [split_lf crlf_segs crlf_rest]. now rewrite (state_machine_ok _ _ g), pipeline_nil by assumption.
  - destruct (in_dec N.eq_dec LF s) as [I|I].
    + destruct (first_lf s I) as (a & b & -> & NA). rewrite split_lf_cons by exact NA.
      apply all_clean_app in HC. destruct HC as [CA CB]. inversion CB as [|? ? _ CB']; subst.
      cbn [crlf_segs]. rewrite (state_machine_ok _ _ g) by assumption.
      destruct (split_lf_nonnil b) as (x & l & E). rewrite E. cbn [crlf_rest].
      set (w1 := set_buf _ _). change (match state_machine (push_crlf w1) x with (None, w') => crlf_rest w' l | (Some _, _) as r => r end)
        with (crlf_segs (push_crlf w1) (x :: l)). rewrite <- E.
      rewrite (IH b (push_crlf w1) Newline); [|rewrite app_length in HL; cbn in HL; lia|exact HA|reflexivity|exact CB'].
      rewrite pipeline_LF.
      assert (EA : after (pipeline a ++ LF :: pipeline b) (wst w) = after (pipeline b) (WGround Newline)).
      { change (LF :: pipeline b) with ([LF] ++ pipeline b). now rewrite !after_app. }
      assert (EE : expand (pipeline a ++ LF :: pipeline b) = pipeline a ++ [CR; LF] ++ expand (pipeline b)).
      { rewrite expand_app, (expand_none (pipeline a)) by now apply pipeline_no_lf. reflexivity. }
      rewrite EA, EE. unfold push_crlf, w1, set_buf, set_wst. cbn [buffer crlf expect ansi wst escseq inner]. now rewrite <- !app_assoc.
    + rewrite split_lf_none by exact I. cbn [crlf_segs crlf_rest]. rewrite (state_machine_ok _ _ g) by assumption.
      rewrite expand_none by now apply pipeline_no_lf. reflexivity.
Qed.
Lemma crlf_segs_bad : forall n s w g, (length s <= n)%nat -> ansi w = false -> wst w = WGround g -> ~ all_clean s ->
  exists e b, crlf_segs w (split_lf s) = (Some e, set_buf (prepare_failure w) b).
Proof.
  induction n as [|n IH]; intros s w g HL HA HW HC.
  - destruct s; [elim HC; constructor|cbn in HL; lia].
  - destruct (in_dec N.eq_dec LF s) as [I|I].
    + destruct (first_lf s I) as (a & b & -> & NA). rewrite split_lf_cons by exact NA. cbn [crlf_segs].
      destruct (all_clean_dec a) as [CA|CA].
      * assert (CB : ~ all_clean b) by (intro CB; apply HC, all_clean_app; split; [exact CA|constructor; [exact clean_LF|exact CB]]).
        rewrite (state_machine_ok _ _ g) by assumption.
        destruct (split_lf_nonnil b) as (x & l & E). rewrite E. cbn [crlf_rest].
        set (w1 := set_buf _ _). change (match state_machine (push_crlf w1) x with (None, w') => crlf_rest w' l | (Some _, _) as r => r end)
          with (crlf_segs (push_crlf w1) (x :: l)). rewrite <- E.
        destruct (IH b (push_crlf w1) Newline) as (e & bb & EE); [rewrite app_length in HL; cbn in HL; lia|exact HA|reflexivity|exact CB|].
        exists e, bb. exact EE.
      * destruct (state_machine_bad a w g HA HW CA) as (e & b' & ->). eauto.
    + rewrite split_lf_none by exact I. cbn [crlf_segs]. destruct (state_machine_bad s w g HA HW HC) as (e & b' & ->). eauto.
Qed.

Lemma write_str_ok : forall s w g, ansi w = false -> wst w = WGround g -> all_clean s ->
  write_str w s = write_buffer (set_buf (set_wst w (after (pipeline s) (wst w))) (buffer w ++ as_sent (crlf w) (pipeline s))).
Proof.
  intros s w g HA HW HC. unfold write_str, as_sent. destruct (crlf w).
  - now rewrite (crlf_segs_ok _ s w g (le_n _)).
  - now rewrite (state_machine_ok _ _ g).
Qed.
Lemma write_str_bad : forall s w g, ansi w = false -> wst w = WGround g -> ~ all_clean s ->
  exists e b, write_str w s = (Some e, set_buf (prepare_failure w) b).
Proof.
  intros s w g HA HW HC. unfold write_str. destruct (crlf w).
  - destruct (crlf_segs_bad _ s w g (le_n _) HA HW HC) as (e & b & ->). cbn. eauto.
  - destruct (state_machine_bad s w g HA HW HC) as (e & b & ->). cbn. eauto.
Qed.

(** * Refinement *)
Definition refines (cr : bool) (d : doc) (w : writer) : Prop :=
  crlf w = cr /\ ansi w = false /\ escseq w = [] /\ emitted (inner w) = sent d /\ abandoned (inner w) = failed d /\ script (inner w) = outcomes d /\
  (if failed d then wst w = WGround Newline
   else buffer w = [] /\ expect w = fresh d /\ wst w = WGround (text_ground (text d))).

Lemma head_sent : forall cr t, opt_all is_basic_text_start (head_opt (as_sent cr t)) = opt_all is_basic_text_start (head_opt t).
Proof.
  intros [|] [|c t]; try reflexivity. cbn. destruct (c =? 10) eqn:E; [|reflexivity]. apply N.eqb_eq in E. subst c. vm_compute. reflexivity.
Qed.
Lemma refines_ground : forall cr d w, refines cr d w -> exists g, wst w = WGround g.
Proof. intros cr d w (_ & _ & _ & _ & _ & _ & H). destruct (failed d); [eauto|]. destruct H as (_ & _ & H). eauto. Qed.
Lemma refines_fail : forall cr d w b, refines cr d w -> refines cr (fail d) (set_buf (prepare_failure w) b).
Proof. intros cr d w b (H1 & H2 & HQ & H3 & H4 & H5 & _). unfold refines. cbn. auto 10. Qed.
Lemma write_buffer_abandoned : forall w, abandoned (inner w) = true -> exists e w', write_buffer w = (Some e, w') /\
  crlf w' = crlf w /\ ansi w' = ansi w /\ escseq w' = escseq w /\ inner w' = inner w /\ wst w' = WGround Newline.
Proof.
  intros [b cr ex an st es [em sc ab]] H. cbn in H. subst ab. unfold write_buffer. cbn [expect buffer]. destruct (ex && _).
  - do 2 eexists. split; [reflexivity|]. cbn. auto 10.
  - do 2 eexists. split; [reflexivity|]. cbn. auto 10.
Qed.
Lemma write_failed : forall w s g, ansi w = false -> wst w = WGround g -> abandoned (inner w) = true -> exists e w', write_str w s = (Some e, w') /\
  crlf w' = crlf w /\ ansi w' = ansi w /\ escseq w' = escseq w /\ inner w' = inner w /\ wst w' = WGround Newline.
Proof.
  intros w s g HA HW HB. destruct (all_clean_dec s) as [C|C].
  - rewrite (write_str_ok _ _ g) by assumption. set (w1 := set_buf _ _). destruct (write_buffer_abandoned w1 HB) as (e & w' & E & K1 & K2 & KQ & K3 & K4).
    exists e, w'. auto 10.
  - destruct (write_str_bad _ _ g HA HW C) as (e & b & E). exists e. eexists. split; [exact E|]. cbn. unfold sink_abandon.
    destruct (inner w) as [em sc ab]. cbn in HB |- *. subst ab. auto 10.
Qed.
Lemma text_ground_after : forall a b, WGround (text_ground (a ++ b)) = after b (WGround (text_ground a)).
Proof. intros a [|x b]; [now rewrite app_nil_r|]. cbn [after]. f_equal. now apply text_ground_app. Qed.

Lemma send_refines : forall cr d w t, refines cr d w -> failed d = false ->
  let w1 := set_buf (set_wst w (after t (wst w))) (buffer w ++ as_sent (crlf w) t) in
  ok (fst (write_buffer w1)) = fst (spec_send cr d t) /\ refines cr (snd (spec_send cr d t)) (snd (write_buffer w1)).
Proof.
  intros cr d w t (H1 & H2 & HQ & H3 & H4 & H5 & H6) EF. rewrite EF in *. destruct H6 as (B & X & S). intro w1. subst w1.
  rewrite B. cbn [app]. unfold write_buffer, spec_send.
  cbn [set_buf set_wst expect buffer]. rewrite head_sent, X. rewrite H1.
  destruct (fresh d && negb (opt_all is_basic_text_start (head_opt t))) eqn:ES.
  - cbn. split; [reflexivity|]. unfold refines. cbn. auto 10.
  - cbn [set_exp set_buf set_wst inner buffer]. unfold sink_write. rewrite H4, H5, H3.
    destruct (outcomes d) as [|[|n] o]; cbn; (split; [reflexivity|]); unfold refines; cbn;
      repeat split; auto; now rewrite S, text_ground_after.
Qed.
Lemma write_refines : forall cr d w s, refines cr d w -> ok (fst (write_str w s)) = fst (spec_write cr d s) /\
  refines cr (snd (spec_write cr d s)) (snd (write_str w s)).
Proof.
  intros cr d w s HR. destruct (refines_ground _ _ _ HR) as [g HG]. pose proof HR as (H1 & H2 & HQ & H3 & H4 & H5 & H6).
  unfold spec_write. destruct (failed d) eqn:EF.
  - destruct (write_failed w s g H2 HG H4) as (e & w' & -> & K1 & K2 & KQ & K3 & K4). cbn. split; [reflexivity|].
    unfold refines. rewrite K1, K2, KQ, K3, EF. auto 10.
  - destruct (forallb allowedb s) eqn:EA; cbn [negb].
    + apply all_allowed in EA. rewrite (write_str_ok _ _ g) by assumption. now apply send_refines.
    + assert (EA' : ~ all_clean s) by (intro K; apply all_allowed in K; congruence).
      destruct (write_str_bad _ _ g H2 HG EA') as (e & b & ->). cbn. split; [reflexivity|]. now apply refines_fail.
Qed.

(** Text writes *)
Lemma push_text_go : forall n s w, (length s <= n)%nat -> s <> [] \/ wst w = WGround Newline ->
  match split_lf s with
  | [] => w
  | seg :: segs => fold_left (fun w seg => push_text_seg (push_crlf w) seg) segs (push_text_seg w seg)
  end = set_buf (set_wst w (after s (wst w))) (buffer w ++ expand s).
Proof.
  induction n as [|n IH]; intros s w HL HN.
  - destruct s; [|cbn in HL; lia]. destruct HN as [HN|HN]; [congruence|]. cbn. unfold push_text_seg, text_ground. cbn. now rewrite HN.
  - destruct (in_dec N.eq_dec LF s) as [I|I].
    + destruct (first_lf s I) as (a & b & -> & NA). rewrite split_lf_cons by exact NA.
      destruct (split_lf_nonnil b) as (x & l & E). rewrite E. cbn [fold_left].
      set (w1 := push_text_seg w a). specialize (IH b (push_crlf w1)). rewrite E in IH. rewrite IH; [|rewrite app_length in HL; cbn in HL; lia|now right].
      assert (EA : after (a ++ LF :: b) (wst w) = after b (WGround Newline)).
      { change (LF :: b) with ([LF] ++ b). now rewrite !after_app. }
      assert (EE : expand (a ++ LF :: b) = a ++ [CR; LF] ++ expand b).
      { rewrite expand_app, (expand_none a) by exact NA. reflexivity. }
      rewrite EA, EE. unfold w1, push_crlf, push_text_seg, set_buf, set_wst. cbn [buffer crlf expect ansi wst escseq inner]. now rewrite <- !app_assoc.
    + rewrite split_lf_none by exact I. cbn [fold_left]. unfold push_text_seg. rewrite expand_none by exact I.
      destruct s as [|c s]; [|reflexivity]. destruct HN as [HN|HN]; [congruence|]. cbn. now rewrite HN.
Qed.
Lemma write_text_eq : forall w s, s <> [] -> write_text w s = write_buffer (set_buf (set_wst w (after s (wst w))) (buffer w ++ as_sent (crlf w) s)).
Proof.
  intros w s HN. unfold write_text, as_sent. destruct (crlf w).
  - rewrite (push_text_go _ s w (le_n _)); auto.
  - destruct s; [congruence|]. reflexivity.
Qed.
Lemma write_text_refines : forall cr d w s, refines cr d w -> s <> [] -> ok (fst (write_text w s)) = fst (spec_write_text cr d s) /\
  refines cr (snd (spec_write_text cr d s)) (snd (write_text w s)).
Proof.
  intros cr d w s HR HN. pose proof HR as (H1 & H2 & HQ & H3 & H4 & H5 & H6). rewrite write_text_eq by exact HN.
  unfold spec_write_text. destruct (failed d) eqn:EF; [|now apply send_refines].
  set (w1 := set_buf _ _). destruct (write_buffer_abandoned w1 H4) as (e & w' & -> & K1 & K2 & KQ & K3 & K4).
  cbn. split; [reflexivity|]. unfold refines. rewrite K1, K2, KQ, K3, EF. unfold w1. cbn. auto 10.
Qed.
Lemma call_refines : forall cr d w, refines cr d w -> failed d = false ->
  let '(okk, k) := sink_call (inner w) in okk = fst (spec_call d) /\ refines cr (snd (spec_call d)) (set_inner (set_exp w true) k).
Proof.
  intros cr d w (H1 & H2 & HQ & H3 & H4 & H5 & H6) EF. unfold sink_call, sink_write, spec_call. rewrite H4, EF, H5, H3.
  rewrite EF in H6. destruct H6 as (B & X & S).
  destruct (outcomes d) as [|[|n] o]; unfold refines; cbn; rewrite ?firstn_nil, ?app_nil_r, ?EF; auto 12.
Qed.
Lemma set_exp_refines : forall cr d w, refines cr d w -> failed d = false -> refines cr (mkdoc (text d) (sent d) true false (outcomes d)) (set_exp w true).
Proof. intros cr d w (H1 & H2 & HQ & H3 & H4 & H5 & H6) EF. rewrite EF in *. destruct H6 as (B & X & S). unfold refines. cbn. auto 12. Qed.
Lemma text_ground_cases : forall t, text_ground t = Newline /\ (t = [] \/ last_opt t = Some LF) \/
  exists c, last_opt t = Some c /\ c <> LF /\ text_ground t = ground_of c.
Proof.
  intro t. unfold text_ground. destruct (last_opt t) as [c|] eqn:E.
  - destruct (c =? LF) eqn:EL; [left; split; [reflexivity|right; f_equal; lia]|right; exists c; repeat split; lia].
  - left. split; [reflexivity|left; now apply last_opt_none].
Qed.
Theorem op_refines : forall cr d w o, refines cr d w -> plain_op o ->
  ok (fst (do_op w o)) = fst (spec_op cr d o) /\ refines cr (snd (spec_op cr d o)) (snd (do_op w o)).
Proof.
  intros cr d w o HR HP. destruct o as [s|s|bs| | |]; cbn [do_op spec_op]; [now apply write_refines|exact (write_text_refines cr d w s HR (proj1 HP))| | | |].
  - unfold write_bytes. destruct (decode bs) as [cs rest]. pose proof (write_refines cr d w cs HR) as K.
    destruct rest as [|b rest].
    + destruct (write_str w cs) as [r w']. destruct cs; cbn [fst snd] in *; exact K.
    + destruct cs as [|c cs]; [|destruct (write_str w (c :: cs)) as [r w']; exact K].
      cbn. split; [reflexivity|]. exact (refines_fail cr d w (buffer w) HR).
  - unfold flush, spec_flush. pose proof HR as (H1 & H2 & HQ & H3 & H4 & H5 & H6). destruct (failed d) eqn:EF.
    + rewrite H6. unfold sink_call, sink_write. rewrite H4. cbn. split; [reflexivity|]. unfold refines. cbn. rewrite EF. auto 10.
    + destruct H6 as (B & X & S). rewrite S. pose proof (call_refines cr d w HR EF) as K.
      destruct (text_ground_cases (text d)) as [[-> L]|(c & L & NL & ->)].
      * destruct (sink_call (inner w)) as [okk k]. replace (opt_all is_basic_text_end (last_opt (text d))) with true.
        -- cbn [fst snd]. destruct K as [-> K]. split; [now destruct (fst (spec_call d))|exact K].
        -- destruct L as [-> | ->]; [reflexivity|]. symmetry. exact end_LF.
      * rewrite L. cbn [opt_all]. unfold ground_of. destruct (is_basic_text_end c).
        -- destruct (sink_call (inner w)) as [okk k]. cbn [fst snd]. destruct K as [-> K]. split; [now destruct (fst (spec_call d))|exact K].
        -- cbn. split; [reflexivity|]. exact (refines_fail cr d w (buffer w) HR).
  - unfold close, spec_close, check_nl, and_then. pose proof HR as (H1 & H2 & HQ & H3 & H4 & H5 & H6). destruct (failed d) eqn:EF.
    + cbn [wst set_exp]. rewrite H6. unfold sink_call, sink_write. cbn [inner set_exp]. rewrite H4. cbn. split; [reflexivity|]. unfold refines. cbn. rewrite EF. auto 10.
    + destruct H6 as (B & X & S). cbn [wst set_exp]. rewrite S. pose proof (call_refines cr d w HR EF) as K.
      destruct (text_ground_cases (text d)) as [[-> L]|(c & L & NL & ->)].
      * cbn [inner set_exp]. destruct (sink_call (inner w)) as [okk k].
        replace (match last_opt (text d) with Some c => if c =? 10 then spec_call d else (false, fail d) | None => spec_call d end) with (spec_call d)
          by (destruct L as [-> | ->]; reflexivity).
        cbn [fst snd]. destruct K as [-> K]. split; [now destruct (fst (spec_call d))|exact K].
      * rewrite L. destruct (c =? 10) eqn:E10; [exfalso; unfold LF in NL; lia|].
        unfold ground_of. destruct (is_basic_text_end c); cbn [fst snd ok]; (split; [reflexivity|]);
          unfold refines; cbn; auto 10.
  - cbn [fst snd ok]. split; [reflexivity|]. unfold refines. cbn. destruct HR as (H1 & H2 & HQ & H3 & H4 & H5 & H6). auto 10.
Qed.

Theorem ops_refine : forall os cr d w, refines cr d w -> Forall plain_op os ->
  map ok (fst (do_ops w os)) = fst (spec_ops cr d os) /\ refines cr (snd (spec_ops cr d os)) (snd (do_ops w os)).
Proof.
  induction os as [|o os IH]; intros cr d w HR HP; [split; [reflexivity|exact HR]|].
  inversion HP as [|? ? P1 P2]; subst. destruct (op_refines cr d w o HR P1) as [E HR']. cbn [do_ops spec_ops].
  destruct (do_op w o) as [r w']. destruct (spec_op cr d o) as [b d']. cbn [fst snd] in *. specialize (IH cr d' w' HR' P2).
  destruct (do_ops w' os) as [rs w'']. destruct (spec_ops cr d' os) as [bs d'']. cbn [fst snd map] in *. destruct IH as [IH1 IH2].
  split; [congruence|exact IH2].
Qed.
Lemma new_refines : forall cr p o, refines cr (new_doc p o) (new_writer cr false (mksink p o false)).
Proof. intros. unfold refines. cbn. auto 12. Qed.
Lemma refines_eq : forall cr d w, refines cr d w -> failed d = false ->
  w = mkwriter [] cr (fresh d) false (WGround (text_ground (text d))) [] (mksink (sent d) (outcomes d) false).
Proof.
  intros cr d [b c e a s q [em sc ab]] (H1 & H2 & HQ & H3 & H4 & H5 & H6) EF. rewrite EF in H6. destruct H6 as (B & X & S). rewrite EF in H4. cbn in *. now subst.
Qed.
