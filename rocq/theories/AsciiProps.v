(** ASCII text passes unchanged. *)
From Coq Require Import NArith Arith List Bool Lia ZifyBool ZifyNat ZifyN.
From Verif Require Import Base Ucd UcdTables Norm Chars TextTables TextUtils UcdFacts NormFacts CharFacts DocTable SpecText TextFacts PipelineFacts DocFacts IsoFacts
  Utf8 Utf8Facts Input Output ReadFacts ReadInv ReadSession SpecRead ReadChunk SpecEscape EscapeFacts EscapeCheck EscapeRun ReadProps KeepFacts ReadPieces SpecConv ConvFacts
  SpecWrite WriteFacts WriteProps Strings StringFacts ConcatFacts EdgeFacts SpecString StringProps ScalarFacts LossyProps JoinProps Fuzz FuzzProps SpecMore CanonProps
  SpecCat CatProps SpecPush PushProps SpecAscii.
Import ListNotations.
Local Open Scope N_scope.
Arguments N.add : simpl never.
Arguments N.leb : simpl never.
Arguments N.ltb : simpl never.
Arguments N.eqb : simpl never.
Local Opaque pipeline.

(** * The 128 characters *)
Definition plainb (c : N) : bool := (c =? 0x9) || (c =? 0xA) || ((0x20 <=? c) && (c <=? 0x7E)).
Lemma plainb_spec : forall c, plainb c = true <-> plain_ascii c.
Proof. intro c. unfold plainb, plain_ascii. lia. Qed.
Lemma plain_is_ascii : forall c, plain_ascii c -> ascii c.
Proof. intros c H. unfold plain_ascii, ascii in *. lia. Qed.
Definition ascii_check (c : N) : bool :=
  eqb (plainb c) (allowedb c) && (negb (plainb c) || (clean c && is_basic_text_start c && is_basic_text_end c && is_public_assigned c && is_assigned c && is_scalar c)).
Transparent ccc cd kd compose qc_nfc is_public_assigned cjk_variant.
Lemma ascii_checked : ranges_all ascii_check [(0, 0x7F)] = true.
Proof. vm_compute. reflexivity. Qed.
Global Opaque ccc cd kd compose qc_nfc is_public_assigned cjk_variant.
Lemma ascii_facts : forall c, ascii c -> ascii_check c = true.
Proof. intros c H. apply (ranges_all_spec _ _ c ascii_checked). unfold ascii in H. unfold in_ranges, in_range. cbn. lia. Qed.
Lemma ascii_allowed : forall c, ascii c -> allowed c <-> plain_ascii c.
Proof.
  intros c H. apply ascii_facts in H. unfold ascii_check in H. apply andb_true_iff in H. destruct H as [H _]. apply eqb_prop in H.
  rewrite <- plainb_spec, H. unfold allowed, allowedb. destruct (doc_lookup c); split; congruence.
Qed.
Lemma plain_facts : forall c, plain_ascii c ->
  clean c = true /\ is_basic_text_start c = true /\ is_basic_text_end c = true /\ is_public_assigned c = true /\ is_assigned c = true /\ is_scalar c = true.
Proof.
  intros c H. pose proof (ascii_facts c (plain_is_ascii c H)) as F. unfold ascii_check in F. apply andb_true_iff in F. destruct F as [_ F].
  rewrite (proj2 (plainb_spec c) H) in F. cbn [negb orb] in F. rewrite !andb_true_iff in F. tauto.
Qed.

(** * Strings *)
Lemma plain_quick : forall s, Forall ascii s -> is_nfc_stream_safe_quick s = Yes.
Proof.
  intros s H. unfold is_nfc_stream_safe_quick. induction H as [|c s HC H IH]; [reflexivity|]. cbn. unfold ascii in HC.
  now rewrite (proj2 (N.leb_le c 127) HC).
Qed.
Lemma plain_asciis : forall s, Forall plain_ascii s -> Forall ascii s.
Proof. intros s H. eapply Forall_impl; [|exact H]. apply plain_is_ascii. Qed.
Lemma plain_pipeline_id : forall s, Forall plain_ascii s -> pipeline s = s.
Proof.
  intros s H. apply pipeline_quick; [apply plain_quick; now apply plain_asciis|]. rewrite forallb_forall. intros c HC.
  rewrite Forall_forall in H. now destruct (plain_facts c (H c HC)) as (_ & _ & _ & A & _).
Qed.
Lemma plain_assigned : forall s, Forall plain_ascii s -> Forall (fun c => is_assigned c = true) s.
Proof. intros s H. eapply Forall_impl; [|exact H]. intros c HC. apply plain_facts in HC. tauto. Qed.
Lemma plain_clean : forall s, Forall plain_ascii s -> all_clean s.
Proof. intros s H. eapply Forall_impl; [|exact H]. intros c HC. apply plain_facts in HC. tauto. Qed.
Lemma plain_scalars : forall s, Forall plain_ascii s -> scalars s.
Proof. intros s H. eapply Forall_impl; [|exact H]. intros c HC. apply plain_facts in HC. tauto. Qed.
Lemma plain_starts : forall s, Forall plain_ascii s -> starts_ok s.
Proof. intros s H c t ->. inversion H as [|? ? HC _]; subst. apply plain_facts in HC. tauto. Qed.
Lemma plain_ends : forall s, Forall plain_ascii s -> ends_ok s.
Proof. intros s H t c ->. apply Forall_app in H. destruct H as [_ H]. inversion H as [|? ? HC _]; subst. apply plain_facts in HC. tauto. Qed.
Lemma plain_accepts : forall s, Forall plain_ascii s -> strict_accepts s.
Proof.
  intros s H. split; [now apply plain_starts|]. split; [now apply plain_ends|]. eapply Forall_impl; [|exact H]. intros c HC. apply ascii_allowed; [now apply plain_is_ascii|exact HC].
Qed.
Lemma plain_from_text : forall check s, Forall plain_ascii s -> string_from_text check s = TOk s.
Proof.
  intros check s H. rewrite string_from_text_spec. rewrite (proj2 (accepted_iff s) (plain_accepts _ H)). now rewrite plain_pipeline_id.
Qed.
Lemma plain_ok : forall s, Forall plain_ascii s -> string_ok s.
Proof. intros s H. apply (from_text_ok is_basic_text s). now apply plain_from_text. Qed.
Theorem ascii_string_ok : forall s, Forall ascii s -> string_ok s <-> Forall plain_ascii s.
Proof.
  intros s A. split; [|apply plain_ok]. intros ((_ & _ & H) & _). rewrite Forall_forall in *. intros c HC. apply ascii_allowed; auto.
Qed.
Theorem ascii_substring_ok : forall s, Forall ascii s -> substring_ok s <-> Forall plain_ascii s.
Proof.
  intros s A. split; [|intro H; exact (proj1 (plain_ok _ H))]. intros (_ & _ & H). rewrite Forall_forall in *. intros c HC. apply ascii_allowed; auto.
Qed.
Theorem ascii_from_text : forall check s, Forall ascii s ->
  (Forall plain_ascii s -> string_from_text check s = TOk s) /\ (~ Forall plain_ascii s -> exists e, string_from_text check s = TErr e).
Proof.
  intros check s A. split; [apply plain_from_text|]. intro H. destruct (string_from_text check s) as [t|e] eqn:E; [|eauto].
  assert (SA : strict_accepts s) by (apply (from_text_succeeds check); eauto). elim H. destruct SA as (_ & _ & F).
  rewrite Forall_forall in *. intros c HC. apply ascii_allowed; auto.
Qed.

(** * Reading *)
Lemma clean_replaced_any : forall nel lsps s, all_clean s -> replaced true (char_rep nel lsps) s (map (fun c => [c]) s).
Proof. intros nel lsps s H. exact (sent_replaced false nel lsps s H). Qed.
Lemma plain_segments : forall script, Forall plain_ascii (stream_text script) -> Forall (Forall plain_ascii) (segments script).
Proof.
  intros script H. rewrite <- segments_concat in H. induction (segments script) as [|s r IH]; [constructor|]. cbn in H. apply Forall_app in H. destruct H. constructor; auto.
Qed.
Lemma plain_no_bom : forall s, Forall plain_ascii s -> forall t, s <> BOM :: t.
Proof. intros s H t ->. inversion H as [|? ? HC _]; subst. unfold plain_ascii in HC. change BOM with 0xFEFF in HC. lia. Qed.
Lemma plain_read_segments : forall script, Forall plain_ascii (stream_text script) -> segments_read script = segments script.
Proof.
  intros script H. unfold segments_read. pose proof (plain_segments _ H) as P. destruct (segments script) as [|s r]; [reflexivity|]. inversion P as [|? ? PS _]; subst.
  f_equal. apply without_bom_none. now apply plain_no_bom.
Qed.
Lemma guarded_singles : forall s, Forall plain_ascii s -> guarded (map (fun c => [c]) s) = s.
Proof. intros s H. unfold guarded. rewrite concat_singles. apply guards_id; [now apply plain_starts|now apply plain_ends]. Qed.
Lemma final_singles : forall s, final_newline (map (fun c => [c]) s) = missing_line_end s.
Proof.
  intro s. unfold final_newline, missing_line_end. destruct s as [|c s _] using rev_ind; [reflexivity|]. rewrite map_app. cbn [map]. rewrite !last_opt_snoc.
  cbn. rewrite andb_true_r. reflexivity.
Qed.
Lemma plain_line : forall s, Forall plain_ascii s -> Forall plain_ascii (s ++ missing_line_end s).
Proof.
  intros s H. apply Forall_app. split; [exact H|]. unfold missing_line_end. destruct (last_opt s) as [c|]; [|constructor]. destruct (c =? 10); [constructor|].
  constructor; [right; now left|constructor].
Qed.
Theorem ascii_read : forall nel lsps script text, gives nel lsps script text -> Forall plain_ascii (stream_text script) ->
  text = stream_text script ++ missing_line_end (stream_text script).
Proof.
  intros nel lsps script text (sizes & rs & j & rest & H & E & <-) P.
  set (rss := map (map (fun c : N => [c])) (segments script)).
  assert (F : Forall2 (replaced true (char_rep nel lsps)) (segments_read script) rss).
  { rewrite plain_read_segments by exact P. unfold rss. pose proof (plain_segments _ P) as PS. induction PS as [|s r HS PS IH]; cbn; constructor; auto.
    apply clean_replaced_any. now apply plain_clean. }
  assert (T : pushed_text rss = stream_text script ++ missing_line_end (stream_text script)).
  { unfold pushed_text, rss. rewrite <- (segments_concat script).
    assert (E1 : concat (map (map (fun c : N => [c])) (segments script)) = map (fun c => [c]) (concat (segments script))) by (symmetry; apply concat_map).
    rewrite E1, final_singles. f_equal. pose proof (plain_segments _ P) as PS. clear - PS. induction PS as [|s r HS PS IH]; [reflexivity|]. cbn [map concat]. now rewrite guarded_singles, IH. }
  assert (BV : bom_visible script) by (left; intro t; now apply plain_no_bom).
  assert (U : unguarded_text (pushed_text rss)) by (rewrite T; apply assigned_unguarded, plain_assigned; now apply plain_line).
  rewrite (session_pushed _ _ _ _ _ _ _ _ H E BV F U), T. apply plain_pipeline_id. now apply plain_line.
Qed.

(** * Writing *)
Lemma plain_decode : forall s, Forall plain_ascii s -> decode s = (s, []).
Proof.
  intros s H. assert (E : encode_all s = s).
  { clear - H. induction H as [|c s HC H IH]; [reflexivity|]. cbn. unfold encode_all in IH. rewrite IH. unfold encode. unfold plain_ascii in HC.
    rewrite (proj2 (N.ltb_lt c 0x80)); [reflexivity|lia]. }
  pose proof (decode_encode s [] (plain_scalars _ H) eq_refl) as D. now rewrite app_nil_r, E in D.
Qed.
Lemma plain_allowedb : forall s, Forall plain_ascii s -> forallb allowedb s = true.
Proof.
  intros s H. apply forallb_forall. rewrite Forall_forall in H. intros c HC. specialize (H c HC). unfold allowedb.
  now rewrite (proj2 (ascii_allowed c (plain_is_ascii c H)) H).
Qed.
Lemma send_plain : forall cr d s, failed d = false -> outcomes d = [] -> Forall plain_ascii s ->
  spec_send cr d s = (true, mkdoc (text d ++ s) (sent d ++ as_sent cr s) false false []).
Proof.
  intros cr d s F O H. unfold spec_send. rewrite O. destruct s as [|c s]; [cbn; now rewrite andb_false_r|].
  assert (is_basic_text_start c = true) as ST by (inversion H as [|? ? HC _]; subst; apply plain_facts in HC; tauto).
  cbn [head_opt opt_all]. rewrite ST. cbn [negb]. now rewrite andb_false_r.
Qed.
Lemma ascii_spec_op : forall cr d o, failed d = false -> outcomes d = [] -> Forall plain_ascii (text d) -> ascii_op o ->
  exists d', spec_op cr d o = (true, d') /\ failed d' = false /\ outcomes d' = [] /\ Forall plain_ascii (text d') /\
    text d' = text d ++ op_given o /\ sent d' = sent d ++ as_sent cr (op_given o).
Proof.
  intros cr d o F O P A.
  assert (G : forall s, Forall plain_ascii s -> exists d', spec_send cr d s = (true, d') /\ failed d' = false /\ outcomes d' = [] /\ Forall plain_ascii (text d') /\
    text d' = text d ++ s /\ sent d' = sent d ++ as_sent cr s).
  { intros s HS. eexists. split; [now apply send_plain|]. cbn. repeat split; auto. apply Forall_app. auto. }
  assert (W : forall s, Forall plain_ascii s -> spec_write cr d s = spec_send cr d s).
  { intros s HS. unfold spec_write. now rewrite F, plain_allowedb, plain_pipeline_id. }
  destruct o as [s|s|bs| | |]; cbn [ascii_op op_given] in *; try contradiction.
  - cbn [spec_op]. rewrite W by exact A. now apply G.
  - destruct A as [_ A]. cbn [spec_op]. unfold spec_write_text. rewrite F. now apply G.
  - cbn [spec_op]. rewrite plain_decode by exact A. replace (match bs with [] => spec_write cr d bs | _ :: _ => spec_write cr d bs end) with (spec_write cr d bs) by (now destruct bs).
    rewrite W by exact A. now apply G.
  - cbn [spec_op]. unfold spec_flush. rewrite F.
    assert (opt_all is_basic_text_end (last_opt (text d)) = true) as -> by (apply ends_ok_iff; now apply plain_ends).
    unfold spec_call. rewrite O. eexists. split; [reflexivity|]. cbn. rewrite app_nil_r. destruct cr; cbn; rewrite app_nil_r; auto 10.
Qed.
Lemma ascii_spec_ops : forall cr os d, failed d = false -> outcomes d = [] -> Forall plain_ascii (text d) -> Forall ascii_op os ->
  exists d', spec_ops cr d os = (map (fun _ => true) os, d') /\ failed d' = false /\ outcomes d' = [] /\ Forall plain_ascii (text d') /\
    text d' = text d ++ flat_map op_given os /\ sent d' = sent d ++ as_sent cr (flat_map op_given os).
Proof.
  intros cr os. induction os as [|o os IH]; intros d F O P A.
  - exists d. cbn. rewrite app_nil_r. destruct cr; cbn; rewrite app_nil_r; auto 10.
  - inversion A as [|? ? A1 A2]; subst. cbn [spec_ops map flat_map]. destruct (ascii_spec_op cr d o F O P A1) as (d1 & E1 & F1 & O1 & P1 & T1 & S1).
    destruct (IH d1 F1 O1 P1 A2) as (d2 & E2 & F2 & O2 & P2 & T2 & S2). exists d2. rewrite E1, E2. split; [reflexivity|].
    rewrite T2, S2, T1, S1, as_sent_app, <- !app_assoc. split; [exact F2|]. split; [exact O2|]. rewrite T2, T1, <- app_assoc in P2. auto.
Qed.
Theorem ascii_written : forall cr p os, Forall ascii_op os ->
  exists w, do_ops (new_writer cr false (mksink p [] false)) os = (map (fun _ => None) os, w) /\
    emitted (inner w) = p ++ as_sent cr (flat_map op_given os) /\
    (fst (close w) = None <-> line_terminated (flat_map op_given os)) /\ emitted (inner (snd (close w))) = emitted (inner w).
Proof.
  intros cr p os A.
  assert (PO : Forall plain_op os).
  { eapply Forall_impl; [|exact A]. intros [s|s|bs| | |] HO; cbn in *; auto. destruct HO as [HO1 HO2]. split; [exact HO1|]. apply substr_spec. now apply plain_ok. }
  destruct (ascii_spec_ops cr os (new_doc p []) eq_refl eq_refl (Forall_nil _) A) as (d' & E & F & O & P & T & SE). cbn [text new_doc sent app] in T, SE.
  destruct (ops_refine os cr _ _ (new_refines cr p []) PO) as [RS R]. rewrite E in RS, R. cbn [fst snd] in RS, R.
  destruct (do_ops _ os) as [rs w]. cbn [fst snd] in RS, R. exists w.
  assert (EM : emitted (inner w) = p ++ as_sent cr (flat_map op_given os)) by (destruct R as (_ & _ & _ & -> & _); exact SE).
  split; [|split; [exact EM|]].
  - f_equal. clear - RS. revert os RS. induction rs as [|r rs IH]; intros [|x os] RS; try discriminate; [reflexivity|]. cbn in RS. injection RS as R1 R2.
    destruct r; [discriminate|]. cbn. f_equal. now apply IH.
  - destruct (op_refines cr _ w OpClose R I) as [C1 C2]. cbn [do_op spec_op] in C1, C2. unfold spec_close in C1, C2. rewrite F, T in C1, C2.
    destruct (close w) as [r w']. cbn [fst snd] in C1, C2 |- *. set (t := flat_map op_given os) in *.
    assert (K : (ok r = true <-> line_terminated t) /\ emitted (inner w') = sent d').
    { destruct t as [|c t _] using rev_ind.
      - cbn in C1, C2. unfold spec_call in C1, C2. rewrite O in C1, C2. cbn [fst snd] in C1, C2. split; [rewrite C1; split; [now left|reflexivity]|]. destruct C2 as (_ & _ & _ & -> & _). reflexivity.
      - rewrite last_opt_snoc in C1, C2. destruct (N.eqb_spec c 10) as [->|NC].
        + unfold spec_call in C1, C2. rewrite O in C1, C2. cbn [fst snd] in C1, C2. split; [rewrite C1; split; [right; eauto|reflexivity]|]. destruct C2 as (_ & _ & _ & -> & _). reflexivity.
        + cbn [fst snd] in C1, C2. split.
          * rewrite C1. split; [discriminate|]. intros [K|[u K]]; [destruct t; discriminate|]. apply app_inj_tail in K. destruct K as [_ K]. contradiction.
          * destruct C2 as (_ & _ & _ & -> & _). reflexivity. }
    destruct K as [K1 K2]. split; [|now rewrite K2, EM]. rewrite <- K1. destruct r; cbn; split; congruence.
Qed.
