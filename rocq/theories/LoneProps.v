(** Precomposed text passes unchanged. *)
From Coq Require Import NArith Arith List Bool Lia ZifyBool ZifyNat ZifyN.
From Verif Require Import Base Ucd UcdTables Norm Chars TextTables TextUtils UcdFacts NormFacts CharFacts DocTable SpecText TextFacts PipelineFacts DocFacts IsoFacts
  Utf8 Utf8Facts Input Output ReadFacts ReadInv ReadSession SpecRead ReadChunk SpecEscape EscapeFacts EscapeCheck EscapeRun ReadProps KeepFacts ReadPieces SpecConv ConvFacts
  SpecWrite WriteFacts WriteProps Strings StringFacts ConcatFacts EdgeFacts SpecString StringProps ScalarFacts LossyProps JoinProps Fuzz FuzzProps SpecMore CanonProps
  SpecCat CatProps SpecPush PushProps SpecAscii AsciiProps SpecLone.
Import ListNotations.
Local Open Scope N_scope.
Arguments N.add : simpl never.
Arguments N.leb : simpl never.
Arguments N.ltb : simpl never.
Arguments N.eqb : simpl never.
Local Opaque pipeline.

(** * Assigned characters *)
Lemma private_use_spec : forall c, is_private_use_area c = true <-> private_use c.
Proof. intro c. unfold is_private_use_area, private_use. cbn [in_ranges existsb tbl_private_use fst snd]. unfold in_range. lia. Qed.
Theorem assigned_spec : forall c, is_assigned c = true <-> is_public_assigned c = true \/ private_use c.
Proof. intro c. unfold is_assigned. rewrite orb_true_iff, private_use_spec. reflexivity. Qed.

(** * Tables *)
Definition free (c : N) : bool := negb (in_ranges c scripts).
Definition tbl_not_end : list (N * N) := [(ZWJ, ZWJ)] ++ tbl_preceding_repha ++ tbl_consonant_prefixed ++ tbl_prepended_concatenation_mark.
Definition public_scripts : list (N * N) := filter (fun r => negb (in_ranges (fst r) tbl_private_use)) scripts.
Definition lead_ok (c : N) (d : list N) : bool := negb (is_basic_text_start c) || negb (nonstarter (hd 0 d)).
Transparent ccc cd kd compose qc_nfc is_public_assigned cjk_variant.
Lemma chk_ccc_free : tall (fun c _ => free c) trie_ccc = true. Proof. vm_compute. reflexivity. Qed.
Lemma chk_qc_free : tall (fun c _ => free c) trie_qc = true. Proof. vm_compute. reflexivity. Qed.
Lemma chk_bad_free : disjoint scripts tbl_bad = true. Proof. vm_compute. reflexivity. Qed.
Lemma chk_start_free : disjoint scripts tbl_not_start = true. Proof. vm_compute. reflexivity. Qed.
Lemma chk_end_free : disjoint scripts tbl_not_end = true. Proof. vm_compute. reflexivity. Qed.
Lemma chk_public_free : disjoint (rlist rtree_not_public) public_scripts = true. Proof. vm_compute. reflexivity. Qed.
Lemma chk_scripts : subset scripts (public_scripts ++ tbl_private_use) = true. Proof. vm_compute. reflexivity. Qed.
Lemma chk_canon_lead : tall lead_ok trie_canon = true. Proof. vm_compute. reflexivity. Qed.
Lemma chk_compat_lead : tall lead_ok trie_compat = true. Proof. vm_compute. reflexivity. Qed.
Lemma scripts_lone : forall c, in_ranges c scripts = true -> lone c.
Proof.
  intros c H.
  assert (F : forall A (t : trie A), tall (fun c _ => free c) t = true -> nfind c t = None).
  { intros A t HT. destruct (nfind c t) eqn:E; [|reflexivity]. pose proof (tall_spec _ _ _ _ _ HT E) as K. cbv beta in K. unfold free in K. rewrite H in K. discriminate. }
  assert (C0 : ccc c = 0) by (unfold ccc; now rewrite (F _ _ chk_ccc_free)).
  constructor.
  - exact C0.
  - unfold qc_nfc. now rewrite (F _ _ chk_qc_free).
  - apply allowed_clean. rewrite clean_bad, (disjoint_spec _ _ _ chk_bad_free H). reflexivity.
  - pose proof (subset_spec _ _ _ chk_scripts H) as K. rewrite in_ranges_app in K. apply orb_true_iff in K. destruct K as [K|K]; [left|right; now apply private_use_spec].
    unfold is_public_assigned. destruct (rmem c rtree_not_public) eqn:E; [|reflexivity]. apply rmem_rlist in E.
    rewrite (disjoint_spec _ _ _ chk_public_free E) in K. discriminate.
  - apply start_intro; [exact C0|]. exact (disjoint_spec _ _ _ chk_start_free H).
  - pose proof (disjoint_spec _ _ _ chk_end_free H) as K. unfold tbl_not_end in K. rewrite !in_ranges_app in K. rewrite !orb_false_iff in K. destruct K as (K1 & K2 & K3 & K4).
    unfold is_basic_text_end. rewrite K2, K3, K4. cbn [in_ranges existsb fst snd] in K1. unfold in_range in K1. destruct (N.eqb_spec c ZWJ) as [->|]; [vm_compute in K1; discriminate|reflexivity].
Qed.
Lemma start_lead : forall c, is_basic_text_start c = true -> cl_leading c = 0%nat.
Proof.
  intros c H. destruct (c <=? 127) eqn:A; [apply NormFacts.ascii_facts; lia|]. rewrite cl_leading_eq.
  assert (C0 : ccc c = 0) by (unfold is_basic_text_start, is_starter in H; rewrite A in H; cbn [orb] in H; destruct (N.eqb_spec (ccc c) 0); [assumption|discriminate H]).
  destruct (kd_cases c) as [->|[[HS ->]|[K|K]]].
  - cbn. unfold nonstarter. now rewrite C0.
  - apply leading_starters. intros x HX. apply ccc_jamo. exact (hangul_jamo _ _ HS HX).
  - apply (tall_spec _ _ _ _ _ chk_canon_lead) in K. unfold lead_ok in K. rewrite H in K. cbn in K. destruct (kd c) as [|x d]; [reflexivity|]. cbn in *. apply negb_true_iff in K. now rewrite K.
  - apply (tall_spec _ _ _ _ _ chk_compat_lead) in K. unfold lead_ok in K. rewrite H in K. cbn in K. destruct (kd c) as [|x d]; [reflexivity|]. cbn in *. apply negb_true_iff in K. now rewrite K.
Qed.
Global Opaque ccc cd kd compose qc_nfc is_public_assigned cjk_variant.

(** * Strings *)
Lemma lone_clean : forall c, lone c -> clean c = true.
Proof. intros c H. apply allowed_clean. apply H. Qed.
Lemma lone_is_assigned : forall c, lone c -> is_assigned c = true.
Proof. intros c H. apply assigned_spec. apply H. Qed.
Lemma lone_quick : forall s, Forall lone s -> is_nfc_stream_safe_quick s = Yes.
Proof.
  intros s H. unfold is_nfc_stream_safe_quick. assert (G : forall s, Forall lone s -> forall n, (n <= 30)%nat -> quick_check 0 n Yes s = Yes); [|apply G; [exact H|lia]].
  clear. intros s H. induction H as [|c s HC H IH]; intros n HN; [reflexivity|]. cbn [quick_check]. destruct (c <=? 127); [apply IH; lia|].
  rewrite (l_starter c HC), (l_yes c HC). cbn [negb N.eqb]. rewrite andb_false_r. pose proof (start_lead c (l_start c HC)) as L. rewrite L.
  assert (Nat.ltb MAX_NONSTARTERS (n + 0) = false) as -> by (apply Nat.ltb_ge; unfold MAX_NONSTARTERS; lia).
  apply IH. apply next_le; [exact HN|]. rewrite L. apply Nat.leb_le. lia.
Qed.
Lemma pipeline_quick_assigned : forall s, is_nfc_stream_safe_quick s = Yes -> Forall (fun c => is_assigned c = true) s -> pipeline s = s.
Proof.
  Local Transparent pipeline.
  intros s H1 H2. unfold is_nfc_stream_safe_quick in H1.
  destruct (quick_sound s 0 0 Yes) as (O & _ & S & F & Y); [lia|congruence|]. destruct (Y H1) as [Y1 _].
  unfold pipeline, isolate_unassigned. rewrite iso_assigned by exact H2.
  assert (C : cjk_compat_variants s = s).
  { unfold cjk_compat_variants. clear - F. induction F as [|c s H HF IH]; [reflexivity|]. cbn [flat_map]. rewrite cjk_notno by exact H. cbn. now rewrite IH. }
  rewrite C. assert (SS : stream_safe s = s) by (unfold stream_safe; now apply ss_go_fix). rewrite SS. now apply nfc_yes.
Qed.
Local Opaque pipeline.
Lemma lone_assigned : forall s, Forall lone s -> Forall (fun c => is_assigned c = true) s.
Proof. intros s H. eapply Forall_impl; [|exact H]. apply lone_is_assigned. Qed.
Lemma lone_pipeline : forall s, Forall lone s -> pipeline s = s.
Proof. intros s H. apply pipeline_quick_assigned; [now apply lone_quick|now apply lone_assigned]. Qed.
Lemma lone_all_clean : forall s, Forall lone s -> all_clean s.
Proof. intros s H. eapply Forall_impl; [|exact H]. apply lone_clean. Qed.
Lemma lone_starts : forall s, Forall lone s -> starts_ok s.
Proof. intros s H c t ->. inversion H as [|? ? HC _]; subst. apply HC. Qed.
Lemma lone_ends : forall s, Forall lone s -> ends_ok s.
Proof. intros s H t c ->. apply Forall_app in H. destruct H as [_ H]. inversion H as [|? ? HC _]; subst. apply HC. Qed.
Lemma lone_accepts : forall s, Forall lone s -> strict_accepts s.
Proof. intros s H. split; [now apply lone_starts|]. split; [now apply lone_ends|]. eapply Forall_impl; [|exact H]. intros c HC. apply HC. Qed.
Theorem lone_from_text : forall check s, Forall lone s -> string_from_text check s = TOk s.
Proof. intros check s H. rewrite string_from_text_spec. rewrite (proj2 (accepted_iff s) (lone_accepts _ H)). now rewrite lone_pipeline. Qed.
Theorem lone_ok : forall s, Forall lone s -> string_ok s.
Proof. intros s H. apply (from_text_ok is_basic_text s). now apply lone_from_text. Qed.

(** * Reading *)
Lemma lone_segments : forall script, Forall lone (stream_text script) -> Forall (Forall lone) (segments script).
Proof.
  intros script H. rewrite <- segments_concat in H. induction (segments script) as [|s r IH]; [constructor|]. cbn in H. apply Forall_app in H. destruct H. constructor; auto.
Qed.
Lemma lone_no_bom : forall s, Forall lone s -> forall t, s <> BOM :: t.
Proof. intros s H t ->. inversion H as [|? ? HC _]; subst. pose proof (lone_clean _ HC) as K. vm_compute in K. discriminate. Qed.
Lemma lone_read_segments : forall script, Forall lone (stream_text script) -> segments_read script = segments script.
Proof.
  intros script H. unfold segments_read. pose proof (lone_segments _ H) as P. destruct (segments script) as [|s r]; [reflexivity|]. inversion P as [|? ? PS _]; subst.
  f_equal. apply without_bom_none. now apply lone_no_bom.
Qed.
Lemma lone_singles : forall s, Forall lone s -> guarded (map (fun c => [c]) s) = s.
Proof. intros s H. unfold guarded. rewrite concat_singles. apply guards_id; [now apply lone_starts|now apply lone_ends]. Qed.
Lemma lone_LF : lone 0xA.
Proof. apply scripts_lone. vm_compute. reflexivity. Qed.
Lemma lone_line : forall s, Forall lone s -> Forall lone (s ++ missing_line_end s).
Proof.
  intros s H. apply Forall_app. split; [exact H|]. unfold missing_line_end. destruct (last_opt s) as [c|]; [|constructor]. destruct (c =? 10); [constructor|].
  constructor; [exact lone_LF|constructor].
Qed.
Theorem lone_read : forall nel lsps script text, gives nel lsps script text -> Forall lone (stream_text script) ->
  text = stream_text script ++ missing_line_end (stream_text script).
Proof.
  intros nel lsps script text (sizes & rs & j & rest & H & E & <-) P.
  set (rss := map (map (fun c : N => [c])) (segments script)).
  assert (F : Forall2 (replaced true (char_rep nel lsps)) (segments_read script) rss).
  { rewrite lone_read_segments by exact P. unfold rss. pose proof (lone_segments _ P) as PS. induction PS as [|s r HS PS IH]; cbn; constructor; auto.
    apply clean_replaced_any. now apply lone_all_clean. }
  assert (T : pushed_text rss = stream_text script ++ missing_line_end (stream_text script)).
  { unfold pushed_text, rss. rewrite <- (segments_concat script).
    assert (E1 : concat (map (map (fun c : N => [c])) (segments script)) = map (fun c => [c]) (concat (segments script))) by (symmetry; apply concat_map).
    rewrite E1, final_singles. f_equal. pose proof (lone_segments _ P) as PS. clear - PS. induction PS as [|s r HS PS IH]; [reflexivity|]. cbn [map concat]. now rewrite lone_singles, IH. }
  assert (BV : bom_visible script) by (left; intro t; now apply lone_no_bom).
  assert (U : unguarded_text (pushed_text rss)) by (rewrite T; apply assigned_unguarded, lone_assigned; now apply lone_line).
  rewrite (session_pushed _ _ _ _ _ _ _ _ H E BV F U), T. apply lone_pipeline. now apply lone_line.
Qed.

(** * Writing *)
Lemma lone_allowedb : forall s, Forall lone s -> forallb allowedb s = true.
Proof.
  intros s H. apply forallb_forall. rewrite Forall_forall in H. intros c HC. specialize (H c HC). unfold allowedb. pose proof (l_allowed c H) as K. unfold allowed in K. now rewrite K.
Qed.
Lemma send_lone : forall cr d s, failed d = false -> outcomes d = [] -> Forall lone s ->
  spec_send cr d s = (true, mkdoc (text d ++ s) (sent d ++ as_sent cr s) false false []).
Proof.
  intros cr d s F O H. unfold spec_send. rewrite O. destruct s as [|c s]; [cbn; now rewrite andb_false_r|].
  assert (is_basic_text_start c = true) as ST by (inversion H as [|? ? HC _]; subst; apply HC).
  cbn [head_opt opt_all]. rewrite ST. cbn [negb]. now rewrite andb_false_r.
Qed.
Lemma lone_spec_op : forall cr d o, failed d = false -> outcomes d = [] -> Forall lone (text d) -> lop_ok o -> scalars (lop_given o) ->
  exists d', spec_op cr d (lop_op o) = (true, d') /\ failed d' = false /\ outcomes d' = [] /\ Forall lone (text d') /\
    text d' = text d ++ lop_given o /\ sent d' = sent d ++ as_sent cr (lop_given o).
Proof.
  intros cr d o F O P A SC.
  assert (G : forall s, Forall lone s -> exists d', spec_send cr d s = (true, d') /\ failed d' = false /\ outcomes d' = [] /\ Forall lone (text d') /\
    text d' = text d ++ s /\ sent d' = sent d ++ as_sent cr s).
  { intros s HS. eexists. split; [now apply send_lone|]. cbn. repeat split; auto. apply Forall_app. auto. }
  assert (W : forall s, Forall lone s -> spec_write cr d s = spec_send cr d s).
  { intros s HS. unfold spec_write. now rewrite F, lone_allowedb, lone_pipeline. }
  destruct o as [s|s|s|]; cbn [lop_ok lop_op lop_given] in *.
  - cbn [spec_op]. rewrite W by exact A. now apply G.
  - cbn [spec_op]. pose proof (decode_encode s [] SC eq_refl) as D. rewrite app_nil_r in D. rewrite D.
    replace (match s with [] => _ | _ => _ end) with (spec_write cr d s) by (now destruct s). rewrite W by exact A. now apply G.
  - destruct A as [_ A]. cbn [spec_op]. unfold spec_write_text. rewrite F. now apply G.
  - cbn [spec_op]. unfold spec_flush. rewrite F.
    assert (opt_all is_basic_text_end (last_opt (text d)) = true) as -> by (apply ends_ok_iff; now apply lone_ends).
    unfold spec_call. rewrite O. eexists. split; [reflexivity|]. cbn. rewrite app_nil_r. destruct cr; cbn; rewrite app_nil_r; auto 10.
Qed.
Lemma lone_spec_ops : forall cr os d, failed d = false -> outcomes d = [] -> Forall lone (text d) -> Forall lop_ok os -> scalars (flat_map lop_given os) ->
  exists d', spec_ops cr d (map lop_op os) = (map (fun _ => true) os, d') /\ failed d' = false /\ outcomes d' = [] /\ Forall lone (text d') /\
    text d' = text d ++ flat_map lop_given os /\ sent d' = sent d ++ as_sent cr (flat_map lop_given os).
Proof.
  intros cr os. induction os as [|o os IH]; intros d F O P A SC.
  - exists d. cbn. rewrite app_nil_r. destruct cr; cbn; rewrite app_nil_r; auto 10.
  - inversion A as [|? ? A1 A2]; subst. cbn [flat_map] in SC. apply Forall_app in SC. destruct SC as [SC1 SC2]. cbn [spec_ops map flat_map].
    destruct (lone_spec_op cr d o F O P A1 SC1) as (d1 & E1 & F1 & O1 & P1 & T1 & S1).
    destruct (IH d1 F1 O1 P1 A2 SC2) as (d2 & E2 & F2 & O2 & P2 & T2 & S2). exists d2. rewrite E1, E2. split; [reflexivity|].
    rewrite T2, S2, T1, S1, as_sent_app, <- !app_assoc. split; [exact F2|]. split; [exact O2|]. rewrite T2, T1, <- app_assoc in P2. auto.
Qed.
Theorem lone_written : forall cr p os, Forall lop_ok os -> scalars (flat_map lop_given os) ->
  exists w, do_ops (new_writer cr false (mksink p [] false)) (map lop_op os) = (map (fun _ => None) os, w) /\
    emitted (inner w) = p ++ as_sent cr (flat_map lop_given os) /\
    (fst (close w) = None <-> line_terminated (flat_map lop_given os)) /\ emitted (inner (snd (close w))) = emitted (inner w).
Proof.
  intros cr p os A SC.
  assert (PO : Forall plain_op (map lop_op os)).
  { apply Forall_map. eapply Forall_impl; [|exact A]. intros [s|s|s|] HO; cbn in *; auto. destruct HO as [HO1 HO2]. split; [exact HO1|]. apply substr_spec. now apply lone_ok. }
  destruct (lone_spec_ops cr os (new_doc p []) eq_refl eq_refl (Forall_nil _) A SC) as (d' & E & F & O & P & T & SE). cbn [text new_doc sent app] in T, SE.
  destruct (ops_refine (map lop_op os) cr _ _ (new_refines cr p []) PO) as [RS R]. rewrite E in RS, R. cbn [fst snd] in RS, R.
  destruct (do_ops _ (map lop_op os)) as [rs w]. cbn [fst snd] in RS, R. exists w.
  assert (EM : emitted (inner w) = p ++ as_sent cr (flat_map lop_given os)) by (destruct R as (_ & _ & _ & -> & _); exact SE).
  split; [|split; [exact EM|]].
  - f_equal. clear - RS. revert os RS. induction rs as [|r rs IH]; intros [|x os] RS; try discriminate; [reflexivity|]. cbn in RS. injection RS as R1 R2.
    destruct r; [discriminate|]. cbn. f_equal. now apply IH.
  - destruct (op_refines cr _ w OpClose R I) as [C1 C2]. cbn [do_op spec_op] in C1, C2. unfold spec_close in C1, C2. rewrite F, T in C1, C2.
    destruct (close w) as [r w']. cbn [fst snd] in C1, C2 |- *. set (t := flat_map lop_given os) in *.
    assert (K : (ok r = true <-> line_terminated t) /\ emitted (inner w') = sent d').
    { destruct t as [|c t _] using rev_ind.
      - cbn in C1, C2. unfold spec_call in C1, C2. rewrite O in C1, C2. cbn [fst snd] in C1, C2. split; [rewrite C1; split; [now left|reflexivity]|]. destruct C2 as (_ & _ & _ & -> & _). reflexivity.
      - rewrite last_opt_snoc in C1, C2. destruct (N.eqb_spec c 10) as [->|NC].
        + unfold spec_call in C1, C2. rewrite O in C1, C2. cbn [fst snd] in C1, C2. split; [rewrite C1; split; [right; eauto|reflexivity]|]. destruct C2 as (_ & _ & _ & -> & _). reflexivity.
        + cbn [fst snd] in C1, C2. split.
          * rewrite C1. split; [discriminate|]. intros [K|[u K]]; [destruct t; discriminate|]. apply app_inj_tail in K. destruct K as [_ K]. contradiction.
          * destruct C2 as (_ & _ & _ & -> & _). reflexivity. }
    destruct K as [K1 K2]. split; [|now rewrite K2, EM]. rewrite <- K1. destruct r; cbn; split; congruence.
Qed.
