(** from_text_lossy: it never panics, gives valid text that the strict side
    accepts unchanged, and keeps valid text. *)
From Coq Require Import NArith Arith List Bool Lia ZifyBool ZifyNat ZifyN.
From Verif Require Import Base Ucd UcdTables Norm Chars TextTables TextUtils UcdFacts NormFacts CharFacts DocTable SpecText TextFacts PipelineFacts DocFacts IsoFacts
  Utf8 Utf8Facts Input Output ReadFacts ReadInv ReadSession SpecRead ReadChunk SpecEscape EscapeFacts EscapeRun ReadProps KeepFacts ReadPieces SpecConv ConvFacts
  SpecWrite WriteFacts WriteProps Strings StringFacts ConcatFacts EdgeFacts SpecString StringProps.
Import ListNotations.
Local Open Scope N_scope.
Arguments N.add : simpl never.
Arguments N.leb : simpl never.
Arguments N.ltb : simpl never.
Arguments N.eqb : simpl never.
Local Opaque pipeline.

(** * The text that is read *)
Lemma reads_as_converted : forall v text, reads_as v text -> exists script, stream_text script = v /\ no_push script /\ bom_visible script /\
  text = converted_stream false false script.
Proof.
  intros v text (script & sizes & rs & j & rest & E & NP & NF & BV & H & EN & ->). exists script. split; [exact E|]. split; [exact NP|]. split; [exact BV|].
  rewrite (received_delivered _ _ _ _ _ _ (wf_new _ _) NF H). now destruct (session_end _ _ _ _ _ _ _ H EN).
Qed.
Lemma reads_as_ok : forall v text, reads_as v text -> string_ok text /\ line_terminated text /\ preceded text.
Proof.
  intros v text H. destruct (reads_as_converted _ _ H) as (script & _ & _ & _ & ->). destruct (converted_ok false false script) as [A B].
  split; [now apply basic_text_spec|]. split; [exact B|]. apply converted_preceded.
Qed.
(** every way of cutting the input, with buffers of any legal sizes, gives a result *)
Theorem reads_as_total : forall script, no_push script -> no_fail script -> bom_visible script -> exists n, forall sizes, legal_sizes sizes -> (n <= length sizes)%nat ->
  exists k rs j rest, reads (new_input false false) script (firstn k sizes) = (rs, j, rest) /\ reached_end rs /\ reads_as (stream_text script) (received rs).
Proof.
  intros script NP NF BV. destruct (session_terminates false false script) as [n H]. exists n. intros sizes L N.
  destruct (H sizes L N) as (k & rs & j & rest & R & E). exists k, rs, j, rest. split; [exact R|]. split; [exact E|].
  exists script, (firstn k sizes), rs, j, rest. auto 10.
Qed.
Lemma one_chunk : forall v, stream_text [Chunk v End] = v /\ no_push [Chunk v End] /\ no_fail [Chunk v End] /\ bom_visible [Chunk v End].
Proof.
  intro v. split; [reflexivity|]. split; [intros cs [E|[]]; discriminate|]. split; [intros [E|[]]; discriminate|].
  destruct v as [|c v]; [left; intros t E; discriminate|right; now exists c, v, End, []].
Qed.
Theorem lossy_total : forall v, exists r, lossy v r.
Proof.
  intro v. destruct (one_chunk v) as (E & NP & NF & BV). destruct (reads_as_total _ NP NF BV) as [n H].
  destruct (H (repeat 136%nat n)) as (k & rs & j & rest & _ & _ & R).
  - apply Forall_forall. intros x HX. apply repeat_spec in HX. lia.
  - rewrite repeat_length. lia.
  - rewrite E in R. eexists _, _. split; [exact R|reflexivity].
Qed.

(** * The final newline *)
Lemma chk_replace_LF : forall c, replace c = [LF] -> c = LF.
Proof.
  intros c H. destruct (N.eq_dec c LF) as [E|NE]; [exact E|exfalso].
  assert (I : In LF (replace c)) by (rewrite H; now left). exact (replace_not_LF _ NE H).
Qed.
Lemma row_LF : forall m r, row true (char_rep false false) m r -> r = [LF] -> exists a x, m = a ++ [x] /\ (x = LF \/ x = CR).
Proof.
  intros m r H. destruct H; intro E; try discriminate.
  - exists [0xD], 0xA. auto.
  - exists [], 0xD. auto.
  - exists (f ++ [0xD]), 0xA. rewrite <- app_assoc. auto.
  - exists f, 0xA. auto.
  - exists f, 0xD. auto.
  - exists [], c. split; [reflexivity|]. left. apply chk_replace_LF. exact E.
Qed.
Lemma newline_added : forall s rs, replaced true (char_rep false false) s rs -> forall t c, s = t ++ [c] -> c <> LF -> c <> CR -> needs_newline rs = true.
Proof.
  intros s rs H. induction H as [|m r rest rs R L H IH]; intros t c E N1 N2; [destruct t; discriminate|].
  destruct rest as [|x rest0 _] using rev_ind.
  - rewrite app_nil_r in E. inversion H; subst; [|apply app_eq_nil in H0; destruct H0 as [-> _]; exfalso; eapply row_nonnil; eauto].
    unfold needs_newline, last_nl. cbn [last_opt]. destruct (is_LF r) eqn:EL; [|reflexivity]. exfalso.
    assert (r = [LF]) as ->. { destruct r as [|y [|? ?]]; try discriminate. cbn in EL. apply N.eqb_eq in EL. now subst y. }
    destruct (row_LF _ _ R eq_refl) as (a & x & EX & HX). apply app_inj_tail in EX. destruct EX as [_ ->]. destruct HX; contradiction.
  - rewrite app_assoc in E. apply app_inj_tail in E. destruct E as [_ ->]. specialize (IH _ _ eq_refl N1 N2).
    unfold needs_newline in *. rewrite last_nl_cons. destruct rs as [|r0 rs]; [|rewrite last_nl_cons in *; exact IH].
    unfold last_nl in IH. cbn in IH. discriminate.
Qed.

Lemma guard_end_ends : forall s, ends_ok (guard_end s).
Proof.
  intro s. apply ends_ok_iff. unfold guard_end. destruct (last_opt s) as [c|] eqn:E; [|rewrite E; reflexivity].
  destruct (is_basic_text_end c) eqn:EC; [rewrite E; exact EC|]. rewrite last_opt_snoc. exact end_CGJ.
Qed.

(** what precedes an added newline ends properly *)
Lemma pieces_newline : forall W out, in_pieces (W ++ [LF]) out -> ends_ok W -> exists t, out = t ++ [LF] /\ ends_ok t.
Proof.
  intros W out (ps & E & F & ->) HE. destruct ps as [|p ps _] using rev_ind; [destruct W; discriminate|].
  rewrite concat_app in E. cbn [concat] in E. rewrite app_nil_r in E. apply Forall_app in F. destruct F as [F FP]. inversion FP as [|? ? HP _]; subst.
  destruct HP as (a & x & -> & HX). rewrite app_assoc in E. apply app_inj_tail in E. destruct E as [E ->].
  rewrite map_app, concat_app. cbn [map concat]. rewrite app_nil_r. rewrite (pipeline_LF a []), pipeline_nil.
  exists (concat (map pipeline ps) ++ pipeline a). split; [now rewrite <- app_assoc|].
  apply ends_ok_iff. destruct (last_opt (pipeline a)) as [c|] eqn:EL.
  - pose proof EL as EL2. apply last_opt_some in EL. destruct EL as [l EL]. rewrite EL, app_assoc, last_opt_snoc. cbn.
    destruct (is_basic_text_end c) eqn:EX; [reflexivity|]. destruct (pipeline_last _ _ _ EL EX) as [b ->].
    rewrite app_assoc in E. rewrite <- E in HE. rewrite (HE _ _ eq_refl) in EX. discriminate.
  - apply last_opt_none in EL. rewrite EL, app_nil_r. destruct ps as [|q ps _] using rev_ind; [reflexivity|].
    rewrite map_app, concat_app. cbn [map concat]. rewrite app_nil_r. apply Forall_app in F. destruct F as [_ FQ]. inversion FQ as [|? ? HQ _]; subst.
    destruct HQ as (b & x & -> & HX2). assert (HB : boundary x) by (destruct HX2 as [-> | ->]; [left|right]; reflexivity).
    destruct (pipeline_end b x HB) as [z EZ]. rewrite EZ, app_assoc, last_opt_snoc. cbn. now apply boundary_end.
Qed.

Lemma newline_stripped : forall script t c, no_push script -> bom_visible script -> without_bom (stream_text script) = t ++ [c] -> c <> LF -> c <> CR ->
  exists u, converted_stream false false script = u ++ [LF] /\ ends_ok u.
Proof.
  intros script t c NP BV E N1 N2. pose proof (converted_pieces false false script NP BV) as P.
  destruct (replaced_total false false (without_bom (stream_text script))) as [rs R].
  rewrite (translate_replaced _ _ _ _ R), (newline_added _ _ R _ _ E N1 N2) in P. apply pieces_newline in P; [exact P|]. apply guard_end_ends.
Qed.

(** * Results *)
Lemma string_ok_prefix : forall u v, string_ok (u ++ v) -> ends_ok u -> string_ok u.
Proof.
  intros u v (H & S & _) E. split; [|split; [|exact E]].
  - apply substr_spec. apply substr_spec in H. now apply substr_app in H.
  - intros c t ->. exact (S c (t ++ v) eq_refl).
Qed.
Lemma boring_nfc : forall x, boring x -> nfc_ss [x].
Proof. intros x H. apply (nfc_ss_split [] x [] H); apply nfc_ss_nil. Qed.
Lemma wj_ok : forall t, string_ok t -> string_ok (WJ :: t).
Proof.
  intros t H. apply basic_text_spec, basic_text_iff. apply basic_text_spec, basic_text_iff in H. destruct H as (H1 & H2 & H3). apply substr_ok_iff in H1. destruct H1 as [C N].
  split; [|split].
  - apply substr_ok_iff. split; [constructor; [vm_compute; reflexivity|exact C]|]. apply (nfc_ss_split [] WJ t boring_WJ nfc_ss_nil N).
  - exact start_WJ.
  - destruct t as [|c t]; [vm_compute; reflexivity|exact H3].
Qed.
Lemma wj_preceded : forall t, preceded t -> preceded (WJ :: t).
Proof.
  intros t H. apply (preceded_app [WJ]); [|exact H]. intros a c b E HC. destruct a as [|x a]; [|destruct a; discriminate].
  injection E as <- <-. vm_compute in HC. discriminate.
Qed.
Lemma removelast_snoc : forall (u : list N) x, removelast (u ++ [x]) = u.
Proof. intros u x. apply removelast_last. Qed.

Lemma lossy_cases : forall v r, lossy v r -> exists t, r = Some t /\ string_ok t /\ preceded t.
Proof.
  intros v r (text & RA & ->). destruct (reads_as_ok _ _ RA) as (OK & LT & PR). destruct (reads_as_converted _ _ RA) as (script & E & NP & BV & ET).
  assert (W : exists v' text', lossy_result v text = (match last_opt v' with None => Some text' | Some c => if (c =? LF) || (c =? CR) then Some text'
      else match last_opt text' with Some l => if l =? LF then Some (removelast text') else None | None => None end end)
    /\ v' = without_bom v /\ (text' = text \/ text' = WJ :: text)).
  { unfold lossy_result. destruct v as [|c v0]; [exists [], text; auto|]. cbn [without_bom]. change 0xFEFF with BOM. destruct (c =? BOM).
    - exists v0, (WJ :: text). auto.
    - exists (c :: v0), text. auto. }
  destruct W as (v' & text' & -> & EV & HT).
  assert (OK' : string_ok text' /\ preceded text') by (destruct HT as [-> | ->]; [auto|split; [now apply wj_ok|now apply wj_preceded]]).
  destruct OK' as [OK' PR'].
  destruct (last_opt v') as [c|] eqn:EL; [|eauto]. destruct ((c =? LF) || (c =? CR)) eqn:EC; [eauto|].
  apply orb_false_iff in EC. destruct EC as [E1 E2]. apply N.eqb_neq in E1, E2. apply last_opt_some in EL. destruct EL as [t0 EL].
  rewrite <- E, EL in EV. symmetry in EV. destruct (newline_stripped _ _ _ NP BV EV E1 E2) as (u & EU & HU). rewrite <- ET in EU. clear ET. subst text.
  assert (exists u', text' = u' ++ [LF] /\ ends_ok u') as (u' & -> & HU').
  { destruct HT as [-> | ->]; [eauto|]. exists (WJ :: u). split; [reflexivity|]. apply ends_ok_iff. apply ends_ok_iff in HU.
    destruct u as [|y u]; [vm_compute; reflexivity|exact HU]. }
  rewrite last_opt_snoc, N.eqb_refl, removelast_snoc. exists u'. split; [reflexivity|]. split; [exact (string_ok_prefix _ _ OK' HU')|exact (preceded_prefix _ _ PR')].
Qed.
Theorem lossy_ok : forall v r, lossy v r -> exists t, r = Some t /\ string_ok t.
Proof. intros v r H. destruct (lossy_cases _ _ H) as (t & E & O & _). eauto. Qed.
Theorem lossy_strict : forall v t check, lossy v (Some t) -> string_from_text check t = TOk t.
Proof. intros v t check H. destruct (lossy_cases _ _ H) as (t' & E & O & P). injection E as <-. now apply from_text_fixed. Qed.

(** * Valid text is kept *)
Lemma clean_special : forall c, clean c = true -> c <> 0xD /\ c <> 0xC /\ c <> 0x1B /\ c <> BOM.
Proof. intros c H. repeat split; intros ->; vm_compute in H; discriminate. Qed.
Lemma clean_replaced : forall s, all_clean s -> replaced true (char_rep false false) s (map (fun c => [c]) s).
Proof.
  intros s H. induction H as [|c s HC H IH]; [constructor|]. cbn [map]. destruct (clean_special _ HC) as (N1 & N2 & N3 & _).
  pose proof (row_char true (char_rep false false) c N1 N2 N3) as RC.
  assert (E0 : char_rep false false c = [c]) by (unfold char_rep; cbn; now apply clean_replace). rewrite E0 in RC.
  change (c :: s) with ([c] ++ s). constructor; [exact RC| |exact IH]. intros m r rest R E.
  assert (K : forall x f, run_of x f -> forall y, f ++ y = c :: s -> c = x).
  { intros x f [NE F] y EF. destruct f as [|z f]; [congruence|]. injection EF as <- _. now inversion F. }
  cbn [app] in E. destruct R; cbn [app length] in *; try (injection E as -> _; contradiction); try lia;
    exfalso; symmetry in E; rewrite <- ?app_assoc in E; match goal with R : run_of ?x ?f |- _ => pose proof (K x f R _ E); congruence end.
Qed.
Lemma concat_singles : forall s : list N, concat (map (fun c => [c]) s) = s.
Proof. induction s as [|c s IH]; [reflexivity|]. cbn. now rewrite IH. Qed.
Lemma singles_newline : forall s, needs_newline (map (fun c : N => [c]) s) = match last_opt s with None => false | Some c => negb (c =? LF) end.
Proof.
  intro s. unfold needs_newline, last_nl. destruct s as [|x s _] using rev_ind; [reflexivity|]. rewrite map_app. cbn [map]. rewrite !last_opt_snoc. reflexivity.
Qed.
Lemma guards_id : forall s, starts_ok s -> ends_ok s -> guard_end (guard_start s) = s.
Proof.
  intros s HS HE. assert (G : guard_start s = s) by (destruct s as [|c s]; [reflexivity|]; cbn; now rewrite (HS c s eq_refl)).
  rewrite G. unfold guard_end. apply ends_ok_iff in HE. destruct (last_opt s) as [c|]; [|reflexivity]. cbn in HE. now rewrite HE.
Qed.
Lemma ok_translate : forall s, string_ok s -> translate false false s = s ++ (match last_opt s with None => [] | Some c => if c =? LF then [] else [LF] end).
Proof.
  intros s ((_ & _ & A) & HS & HE). apply Forall_allowed_clean in A. rewrite (translate_replaced _ _ _ _ (clean_replaced _ A)), concat_singles, guards_id, singles_newline by assumption.
  f_equal. destruct (last_opt s) as [c|]; [|reflexivity]. now destruct (c =? LF).
Qed.
Lemma ok_no_bom : forall s, string_ok s -> without_bom s = s /\ forall t, s <> BOM :: t.
Proof.
  intros s ((_ & _ & A) & _). apply Forall_allowed_clean in A. split.
  - destruct s as [|c s]; [reflexivity|]. inversion A as [|? ? C _]; subst. apply clean_special in C. cbn. change 0xFEFF with BOM.
    destruct (c =? BOM) eqn:E; [|reflexivity]. apply N.eqb_eq in E. intuition.
  - intros t ->. inversion A as [|? ? C _]; subst. apply clean_special in C. intuition.
Qed.
Definition line_end (s : list N) : list N := match last_opt s with None => [] | Some c => if c =? LF then [] else [LF] end.
Lemma ok_line : forall s, string_ok s -> preceded s -> pipeline (s ++ line_end s) = s ++ line_end s.
Proof.
  intros s H P. unfold line_end. destruct (last_opt s) as [c|]; [|rewrite app_nil_r; now apply ok_pipeline].
  destruct (c =? LF); [rewrite app_nil_r; now apply ok_pipeline|]. rewrite (pipeline_LF s []), pipeline_nil. now rewrite ok_pipeline.
Qed.
Lemma lossy_of_line : forall s, string_ok s -> lossy_result s (s ++ line_end s) = Some s.
Proof.
  intros s H. destruct (ok_no_bom _ H) as [_ NB]. assert (NCR : forall t, s <> t ++ [CR]).
  { intros t ->. destruct H as ((_ & _ & A) & _). apply Forall_app in A. destruct A as [_ A]. inversion A as [|? ? C _]; subst. apply allowed_clean in C. vm_compute in C. discriminate. }
  unfold lossy_result, line_end. destruct s as [|c s]; [reflexivity|]. assert (c =? BOM = false) as -> by (apply N.eqb_neq; intros ->; now apply (NB s)).
  destruct (last_opt (c :: s)) as [x|] eqn:EL; [|apply last_opt_none in EL; discriminate].
  destruct (x =? LF) eqn:EX; cbn [orb]; [now rewrite app_nil_r|].
  destruct (x =? CR) eqn:EC; [apply N.eqb_eq in EC; subst x; apply last_opt_some in EL; destruct EL as [t EL]; exfalso; now apply (NCR t)|].
  rewrite last_opt_snoc. change (LF =? LF) with true. cbv iota. now rewrite removelast_snoc.
Qed.
Lemma assigned_unguarded : forall s, Forall (fun c => is_assigned c = true) s -> unguarded_text s.
Proof. intros s H a c b ->. apply Forall_app in H. destruct H as [_ H]. inversion H as [|? ? _ H2]; subst. now inversion H2. Qed.
Lemma assigned_preceded : forall s, Forall (fun c => is_assigned c = true) s -> preceded s.
Proof. intros s H a c b -> HC. apply Forall_app in H. destruct H as [_ H]. inversion H as [|? ? H1 _]; subst. congruence. Qed.
(** however the text arrives *)
Theorem lossy_keeps : forall s r, string_ok s -> Forall (fun c => is_assigned c = true) s -> lossy s r -> r = Some s.
Proof.
  intros s r H A (text & RA & ->). destruct (reads_as_converted _ _ RA) as (script & E & NP & BV & ->).
  assert (T : translate false false (without_bom (stream_text script)) = s ++ line_end s) by (rewrite E, (proj1 (ok_no_bom _ H)); now apply ok_translate).
  rewrite (converted_plain _ _ _ NP BV); rewrite T.
  - rewrite ok_line; [now apply lossy_of_line|exact H|now apply assigned_preceded].
  - apply assigned_unguarded. apply Forall_app. split; [exact A|]. unfold line_end. destruct (last_opt s) as [c|]; [|constructor].
    destruct (c =? LF); repeat constructor.
Qed.
(** text that arrives in one read *)
Definition reads_at_once (v text : list N) : Prop :=
  exists sizes rs j rest, reads (new_input false false) [Chunk v End] sizes = (rs, j, rest) /\ reached_end rs /\ text = received rs.
Theorem lossy_keeps_at_once : forall s text, string_ok s -> preceded s -> reads_at_once s text -> lossy_result s text = Some s.
Proof.
  intros s text H P (sizes & rs & j & rest & R & E & ->). destruct (one_chunk s) as (_ & _ & NF & _).
  rewrite (received_delivered _ _ _ _ _ _ (wf_new _ _) NF R). destruct (session_end _ _ _ _ _ _ _ R E) as (-> & _).
  rewrite converted_whole, (proj1 (ok_no_bom _ H)), ok_translate by exact H. fold (line_end s). rewrite ok_line by assumption. now apply lossy_of_line.
Qed.

(** * Writing back what was read *)
Theorem written_back : forall cr p t, string_ok t -> line_terminated t -> preceded t ->
  exists w w', write_str (new_writer cr false (mksink p [] false)) t = (None, w) /\ close w = (None, w') /\ emitted (inner w') = p ++ as_sent cr t.
Proof.
  intros cr p t OK LT PR. pose proof (ok_pipeline _ OK PR) as EP. pose proof (ok_accepted _ OK) as (HS & HE & HA).
  assert (AL : forallb allowedb t = true) by (apply all_allowed; now apply Forall_allowed_clean).
  destruct (op_refines cr _ _ (OpWriteStr t) (new_refines cr p []) I) as [W1 W2]. cbn [do_op spec_op] in W1, W2.
  unfold spec_write in W1, W2. cbn [failed new_doc] in W1, W2. rewrite AL in W1, W2. cbn [negb] in W1, W2. rewrite EP in W1, W2.
  unfold spec_send in W1, W2. cbn [fresh new_doc andb outcomes] in W1, W2. rewrite (proj2 (starts_ok_iff t) HS) in W1, W2. cbn [negb fst snd text sent] in W1, W2.
  destruct (write_str (new_writer cr false (mksink p [] false)) t) as [r w]. cbn [fst snd] in W1, W2. destruct r; [discriminate|].
  destruct (op_refines cr _ _ OpClose W2 I) as [C1 C2]. cbn [do_op spec_op] in C1, C2.
  unfold spec_close in C1, C2. cbn [failed text] in C1, C2. change (text (new_doc p []) ++ t) with t in C1, C2.
  destruct (close w) as [r2 w2] eqn:EC. cbn [fst snd] in C1, C2.
  assert (K : (ok r2 = true /\ emitted (inner w2) = p ++ as_sent cr t)).
  { destruct LT as [-> |[u ->]].
    - cbn in C1, C2. split; [exact C1|]. apply C2.
    - rewrite last_opt_snoc in C1, C2. change (10 =? 10) with true in C1, C2. cbv iota in C1, C2. split; [exact C1|]. apply C2. }
  destruct K as [K1 K2]. destruct r2; [discriminate|]. exists w, w2. auto.
Qed.
Theorem read_written_back : forall nel lsps script sizes rs j rest cr p, reads (new_input nel lsps) script sizes = (rs, j, rest) -> no_fail script -> reached_end rs ->
  exists w w', write_str (new_writer cr false (mksink p [] false)) (received rs) = (None, w) /\ close w = (None, w') /\ emitted (inner w') = p ++ as_sent cr (received rs).
Proof.
  intros nel lsps script sizes rs j rest cr p H NF E. destruct (session_is_text _ _ _ _ _ _ _ H NF E) as [OK LT]. apply written_back; auto.
  rewrite (received_delivered _ _ _ _ _ _ (wf_new _ _) NF H). destruct (session_end _ _ _ _ _ _ _ H E) as (-> & _). apply converted_preceded.
Qed.
