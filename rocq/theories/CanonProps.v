(** Canonical equivalence, text that reading keeps, pieces of text. *)
From Coq Require Import NArith Arith List Bool Lia ZifyBool ZifyNat ZifyN.
From Verif Require Import Base Ucd UcdTables Norm Chars TextTables TextUtils UcdFacts NormFacts CharFacts DocTable SpecText TextFacts PipelineFacts DocFacts IsoFacts
  Utf8 Utf8Facts Input Output ReadFacts ReadInv ReadSession SpecRead ReadChunk SpecEscape EscapeFacts EscapeRun ReadProps KeepFacts ReadPieces SpecConv ConvFacts
  SpecWrite WriteFacts WriteProps Strings StringFacts ConcatFacts EdgeFacts SpecString StringProps ScalarFacts LossyProps JoinProps Fuzz FuzzProps SpecMore.
Import ListNotations.
Local Open Scope N_scope.
Arguments N.add : simpl never.
Arguments N.leb : simpl never.
Arguments N.ltb : simpl never.
Arguments N.eqb : simpl never.
Local Opaque pipeline.

(** * Canonical equivalence *)
Theorem canonical_eq : forall a b, nfc_text a -> nfc_text b -> nfd a = nfd b -> a = b.
Proof. intros a b HA HB E. unfold nfc_text, nfc in *. congruence. Qed.
Lemma iso_assigned : forall s, Forall (fun c => is_assigned c = true) s -> isolate_unassigned s = s.
Proof.
  intros s H. unfold isolate_unassigned. assert (G : forall h, isolate_go false h s = s); [|apply G].
  induction H as [|c s HC H IH]; intro h; [reflexivity|]. cbn. rewrite HC. cbn. now rewrite IH.
Qed.
Lemma pipeline_nfc : forall s, all_clean s -> Forall (fun c => is_assigned c = true) s -> stream_safe_text s -> pipeline s = nfc s.
Proof. intros s C A SS. rewrite pipeline_iso, iso_assigned by assumption. f_equal. now apply stream_safe_spec. Qed.
Lemma plain_pipeline : forall s, plain s -> pipeline s = nfc s.
Proof. intros s (A & B & C). apply pipeline_nfc; auto. now apply Forall_allowed_clean. Qed.
(** a test for ordinary text *)
Definition ordinary (s : list N) : bool := forallb allowedb s && forallb is_assigned s && list_eqb (stream_safe s) s.
Lemma ordinary_plain : forall s, ordinary s = true -> plain s.
Proof.
  intros s H. unfold ordinary in H. apply andb_prop in H. destruct H as [H H3]. apply andb_prop in H. destruct H as [H1 H2]. split; [now apply all_allowed_iff|].
  split; [now apply Forall_forall, forallb_forall|]. apply stream_safe_spec. now apply list_eqb_eq.
Qed.
Theorem from_text_canonical : forall check a b t, plain a -> plain b -> nfd a = nfd b -> string_from_text check a = TOk t <-> string_from_text check b = TOk t.
Proof.
  assert (G : forall check a b t, plain a -> plain b -> nfd a = nfd b -> string_from_text check a = TOk t -> string_from_text check b = TOk t).
  { intros check a b t PA PB E H. rewrite string_from_text_spec in *. destruct (accepted a) eqn:EA; [|discriminate]. injection H as <-.
    assert (EP : pipeline a = pipeline b) by (rewrite !plain_pipeline by assumption; unfold nfc; now rewrite E).
    assert (accepted b = true) as ->; [|now rewrite EP]. unfold accepted in *. rewrite <- EP. apply andb_prop in EA. destruct EA as [EA ->]. apply andb_prop in EA. destruct EA as [_ ->].
    rewrite (proj2 (all_allowed_iff b)); [reflexivity|apply PB]. }
  intros check a b t PA PB E. split; apply G; auto.
Qed.
Theorem from_text_nfc : forall check s, plain s -> starts_ok s -> ends_ok s -> string_from_text check s = TOk (nfc s).
Proof.
  intros check s P S E. rewrite string_from_text_spec. rewrite (proj2 (accepted_iff s)); [|split; [exact S|split; [exact E|apply P]]]. now rewrite plain_pipeline.
Qed.

(** * Reading *)
Lemma line_end_plain : forall s, plain s -> plain (s ++ line_end s).
Proof.
  intros s (A & B & C). unfold line_end. destruct (last_opt s) as [c|]; [|rewrite app_nil_r; now split].
  destruct (c =? LF); [rewrite app_nil_r; now split|]. split; [|split].
  - apply Forall_app. split; [exact A|]. repeat constructor.
  - apply Forall_app. split; [exact B|]. repeat constructor.
  - intros a run b E NR. rewrite flat_map_app in E. cbn [flat_map] in E. rewrite app_nil_r in E.
    assert (KL : kd LF = [LF]) by reflexivity. rewrite KL in E.
    destruct b as [|y b _] using rev_ind.
    + rewrite app_nil_r in E. destruct run as [|z run _] using rev_ind; [cbn; lia|]. rewrite app_assoc in E. apply app_inj_tail in E. destruct E as [_ <-].
      apply Forall_app in NR. destruct NR as [_ NR]. inversion NR as [|? ? NZ _]; subst. exfalso. apply NZ. reflexivity.
    + rewrite !app_assoc in E. apply app_inj_tail in E. destruct E as [E _]. apply (C a run b); [now rewrite app_assoc|exact NR].
Qed.
Lemma accepts_translate : forall v, strict_accepts v -> translate false false (without_bom v) = v ++ line_end v.
Proof.
  intros v (HS & HE & A). apply Forall_allowed_clean in A.
  assert (without_bom v = v) as ->.
  { destruct v as [|c v]; [reflexivity|]. inversion A as [|? ? C _]; subst. apply clean_special in C. cbn. change 0xFEFF with BOM.
    destruct (c =? BOM) eqn:E; [|reflexivity]. apply N.eqb_eq in E. intuition. }
  rewrite (translate_replaced _ _ _ _ (clean_replaced _ A)), concat_singles, guards_id, singles_newline by assumption.
  f_equal. unfold line_end. destruct (last_opt v) as [c|]; [|reflexivity]. now destruct (c =? LF).
Qed.
(** ordinary text is read as its NFC *)
Theorem reads_nfc : forall v s, plain v -> starts_ok v -> ends_ok v -> reads_as v s -> s = nfc (v ++ line_end v).
Proof.
  intros v s P HS HE RA. destruct (reads_as_converted _ _ RA) as (script & E & NP & BV & ->).
  assert (SA : strict_accepts v) by (split; [exact HS|split; [exact HE|apply P]]).
  rewrite (converted_plain _ _ _ NP BV); rewrite E, (accepts_translate _ SA).
  - apply plain_pipeline. now apply line_end_plain.
  - apply assigned_unguarded. now apply line_end_plain.
Qed.
Theorem reads_ordinary : forall v s, plain v -> starts_ok v -> ends_ok v -> reads_as v s ->
  (line_terminated v -> s = nfc v) /\ (~ line_terminated v -> s = nfc (v ++ [0xA])).
Proof.
  intros v s P HS HE RA. rewrite (reads_nfc v s P HS HE RA). unfold line_end. destruct v as [|c v _] using rev_ind.
  - split; [reflexivity|]. intro K. elim K. now left.
  - rewrite last_opt_snoc. destruct (c =? LF) eqn:E.
    + apply N.eqb_eq in E. subst c. rewrite app_nil_r. split; [reflexivity|]. intro K. elim K. right. now exists v.
    + split; [|reflexivity]. intros [K|[u K]]; [destruct v; discriminate|]. apply app_inj_tail in K. destruct K as [_ ->]. apply N.eqb_neq in E. now elim E.
Qed.
(** what reading keeps *)
Theorem read_keeps : forall v s, reads_at_once v s -> s = v <-> string_ok v /\ line_terminated v /\ preceded v.
Proof.
  intros v s RA. split.
  - intros ->. apply at_once_reads in RA. now apply (reads_as_ok v).
  - intros (OK & LT & PR). rewrite (closes_read_at_once v s); [now apply ok_pipeline|now apply ok_closes|exact RA].
Qed.
Theorem read_keeps_only : forall v s, reads_as v s -> s = v -> string_ok v /\ line_terminated v /\ preceded v.
Proof. intros v s RA ->. now apply (reads_as_ok v). Qed.
Theorem read_keeps_any : forall v s, string_ok v -> line_terminated v -> Forall (fun c => is_assigned c = true) v -> reads_as v s -> s = v.
Proof.
  intros v s OK LT A RA. rewrite (closes_read v s); [|now apply ok_closes|exact RA|now apply assigned_unguarded]. apply ok_pipeline; [exact OK|]. now apply assigned_preceded.
Qed.

(** * The writer and the string type accept the same text *)
Theorem write_close_string : forall check v t, scalars v ->
  write_and_close (encode_all v) = Some t <-> string_from_text check v = TOk t /\ line_terminated v.
Proof.
  intros check v t S. rewrite write_and_close_spec, string_from_text_spec. split.
  - intros (u & SU & EU & C & ->). apply encode_all_inj in EU; auto. subst u. destruct C as [C L]. rewrite (proj2 (accepted_iff v) C). auto.
  - intros [E L]. destruct (accepted v) eqn:EA; [|discriminate]. injection E as <-. exists v. split; [exact S|]. split; [reflexivity|]. split; [|reflexivity].
    split; [now apply accepted_iff|exact L].
Qed.
Theorem write_close_bytes : forall bs t, write_and_close bs = Some t -> valid_utf8 bs = true.
Proof. intros bs t H. apply write_and_close_spec in H. destruct H as (v & S & -> & _). apply valid_utf8_spec. eauto. Qed.

(** * Writing a text in pieces *)
Theorem pieces_written : forall cr p ps, string_ok (concat ps) -> Forall (fun x => x <> []) ps ->
  exists w, do_ops (new_writer cr false (mksink p [] false)) (map OpWriteText ps) = (map (fun _ => None) ps, w) /\
    emitted (inner w) = p ++ as_sent cr (concat ps) /\
    (line_terminated (concat ps) -> exists w', close w = (None, w') /\ emitted (inner w') = p ++ as_sent cr (concat ps)).
Proof.
  intros cr p ps OK NE.
  assert (PO : Forall plain_op (map OpWriteText ps)).
  { apply Forall_forall. intros o HO. apply in_map_iff in HO. destruct HO as (x & <- & HX). cbn. rewrite Forall_forall in NE. split; [now apply NE|].
    apply in_split in HX. destruct HX as (a & b & ->). rewrite concat_app in OK. cbn in OK. destruct OK as [OK _]. apply substr_spec in OK. apply substr_spec.
    apply substr_spec, (substr_slice x (concat a ++ x ++ concat b)); [now exists (concat a), (concat b)|exact OK]. }
  assert (G : forall ps d, Forall (fun x => x <> []) ps -> failed d = false -> outcomes d = [] -> (fresh d = true -> starts_ok (concat ps)) ->
     exists d', spec_ops cr d (map OpWriteText ps) = (map (fun _ => true) ps, d') /\ failed d' = false /\ outcomes d' = [] /\ text d' = text d ++ concat ps /\ sent d' = sent d ++ as_sent cr (concat ps)).
  { clear. induction ps as [|x ps IH]; intros d NE F O ST; cbn [map spec_ops].
    - exists d. cbn. rewrite app_nil_r. destruct cr; cbn; rewrite app_nil_r; auto.
    - inversion NE as [|? ? NX NP]; subst. cbn [spec_op]. unfold spec_write_text. rewrite F. unfold spec_send. rewrite O.
      assert (fresh d && negb (opt_all is_basic_text_start (head_opt x)) = false) as ->.
      { destruct (fresh d); [|reflexivity]. specialize (ST eq_refl). destruct x as [|c x]; [congruence|]. cbn. apply negb_false_iff. apply (ST c (x ++ concat ps)). reflexivity. }
      destruct (IH (mkdoc (text d ++ x) (sent d ++ as_sent cr x) false false [])) as (d' & E & F' & O' & T' & S'); auto; [discriminate|].
      exists d'. rewrite E. cbn [text sent concat] in *. rewrite T', S', as_sent_app, !app_assoc. auto. }
  destruct (G ps (new_doc p []) NE eq_refl eq_refl) as (d' & E & F & O & T & SE); [intros _; apply OK|].
  destruct (ops_refine (map OpWriteText ps) cr _ _ (new_refines cr p []) PO) as [RS R]. rewrite E in RS, R. cbn [fst snd] in RS, R.
  destruct (do_ops _ (map OpWriteText ps)) as [rs w]. cbn [fst snd] in RS, R. exists w.
  assert (EM : emitted (inner w) = p ++ as_sent cr (concat ps)) by (destruct R as (_ & _ & _ & -> & _); exact SE).
  split; [|split; [exact EM|]].
  - f_equal. clear - RS. revert ps RS. induction rs as [|r rs IH]; intros [|x ps] RS; try discriminate; [reflexivity|]. cbn in RS. injection RS as R1 R2.
    destruct r; [discriminate|]. cbn. f_equal. now apply IH.
  - intro LT. destruct (op_refines cr _ w OpClose R I) as [C1 C2]. cbn [do_op spec_op] in C1, C2. unfold spec_close in C1, C2. rewrite F, T in C1, C2. cbn [text new_doc] in C1, C2.
    destruct (close w) as [r w']. cbn [fst snd] in C1, C2.
    assert (K : ok r = true /\ emitted (inner w') = sent d').
    { destruct LT as [LT|[u LT]]; rewrite LT in C1, C2.
      - cbn in C1, C2. unfold spec_call in C1, C2. rewrite O in C1, C2. cbn [fst snd] in C1, C2. split; [exact C1|]. destruct C2 as (_ & _ & _ & -> & _). reflexivity.
      - rewrite app_nil_l, last_opt_snoc in C1, C2. change (10 =? 10) with true in C1, C2. cbv iota in C1, C2. unfold spec_call in C1, C2. rewrite O in C1, C2. cbn [fst snd] in C1, C2.
        split; [exact C1|]. destruct C2 as (_ & _ & _ & -> & _). reflexivity. }
    destruct K as [K1 K2]. destruct r; [discriminate|]. exists w'. split; [reflexivity|]. rewrite K2. exact SE.
Qed.

(** * Reading back what was written *)
Lemma clean_separators : forall c, clean c = true -> c <> 0x85 /\ c <> 0x2028 /\ c <> 0x2029.
Proof. intros c H. repeat split; intros ->; vm_compute in H; discriminate. Qed.
Lemma clean_char_rep : forall nel lsps c, clean c = true -> char_rep nel lsps c = [c].
Proof.
  intros nel lsps c H. destruct (clean_separators _ H) as (N1 & N2 & N3). unfold char_rep. apply N.eqb_neq in N1, N2, N3. rewrite N1, N2, N3, !andb_false_r. cbn. now apply clean_replace.
Qed.
Lemma sent_replaced : forall cr nel lsps s, all_clean s -> replaced true (char_rep nel lsps) (as_sent cr s) (map (fun c => [c]) s).
Proof.
  intros cr nel lsps s H. induction H as [|c s HC H IH]; [destruct cr; constructor|]. destruct (clean_special _ HC) as (N1 & N2 & N3 & _).
  assert (K : forall x f, run_of x f -> forall y z t, f ++ y = z :: t -> z = x).
  { intros x f [NE F] y z t EF. destruct f as [|w f]; [congruence|]. injection EF as <- _. now inversion F. }
  pose proof (row_char true (char_rep nel lsps) c N1 N2 N3) as RC. rewrite (clean_char_rep nel lsps c HC) in RC. cbn [map].
  destruct (cr && (c =? 0xA)) eqn:EC.
  - apply andb_prop in EC. destruct EC as [-> EC]. apply N.eqb_eq in EC. subst c.
    change (as_sent true (0xA :: s)) with ([0xD; 0xA] ++ as_sent true s). constructor; [constructor| |exact IH]. intros m r rest R E. cbn [app] in E.
    destruct R; cbn [app length] in *; try lia; try (injection E as <- _; contradiction);
      exfalso; symmetry in E; rewrite <- ?app_assoc in E; match goal with R : run_of ?x ?f |- _ => pose proof (K x f R _ _ _ E) as X; discriminate X end.
  - assert (EA : as_sent cr (c :: s) = [c] ++ as_sent cr s).
    { unfold as_sent in *. destruct cr; [|reflexivity]. cbn in *. now rewrite EC. }
    rewrite EA. constructor; [exact RC| |exact IH]. intros m r rest R E. cbn [app] in E.
    destruct R; cbn [app length] in *; try (injection E as -> _; contradiction); try lia;
      exfalso; symmetry in E; rewrite <- ?app_assoc in E; match goal with R : run_of ?x ?f |- _ => pose proof (K x f R _ _ _ E); congruence end.
Qed.
Lemma stored_translate : forall bom cr nel lsps v, closes v -> translate nel lsps (without_bom (stored bom cr v)) = v.
Proof.
  intros bom cr nel lsps v ((HS & HE & A) & LT). apply Forall_allowed_clean in A.
  assert (without_bom (stored bom cr v) = as_sent cr v) as ->.
  { unfold stored. destruct bom; [reflexivity|]. cbn [app]. assert (G : forall t, as_sent cr v <> 0xFEFF :: t).
    { intros t E. destruct v as [|c v]; [destruct cr; discriminate|]. inversion A as [|? ? C _]; subst. apply clean_special in C. destruct C as (_ & _ & _ & C).
      destruct cr; cbn in E; [destruct (c =? 10); injection E as E1 _; [discriminate E1|]|injection E as E1 _]; apply C; exact E1. }
    destruct (as_sent cr v) as [|c u]; [reflexivity|]. cbn. destruct (c =? 0xFEFF) eqn:E; [|reflexivity]. apply N.eqb_eq in E. subst c. exfalso. now apply (G u). }
  rewrite (translate_replaced _ _ _ _ (sent_replaced cr nel lsps v A)), concat_singles, guards_id, singles_newline by assumption.
  destruct LT as [->|[t ->]]; [reflexivity|]. rewrite last_opt_snoc. change (10 =? LF) with true. cbn. apply app_nil_r.
Qed.
(** however it is read *)
Theorem read_back : forall bom cr nel lsps t sc sizes rs j rest, string_ok t -> line_terminated t -> Forall (fun c => is_assigned c = true) t ->
  stream_text sc = stored bom cr t -> no_push sc -> bom_visible sc ->
  reads (new_input nel lsps) sc sizes = (rs, j, rest) -> reached_end rs -> delivered rs = t.
Proof.
  intros bom cr nel lsps t sc sizes rs j rest OK LT A E NP BV R EN. destruct (session_end _ _ _ _ _ _ _ R EN) as (-> & _).
  assert (C : closes t) by now apply ok_closes.
  rewrite (converted_plain _ _ _ NP BV); rewrite E, stored_translate by exact C; [|now apply assigned_unguarded]. apply ok_pipeline; [exact OK|now apply assigned_preceded].
Qed.
Theorem read_back_at_once : forall bom cr nel lsps t sizes rs j rest, string_ok t -> line_terminated t -> preceded t ->
  reads (new_input nel lsps) [Chunk (stored bom cr t) End] sizes = (rs, j, rest) -> reached_end rs -> delivered rs = t.
Proof.
  intros bom cr nel lsps t sizes rs j rest OK LT P R EN. destruct (session_end _ _ _ _ _ _ _ R EN) as (-> & _).
  rewrite converted_whole, stored_translate by now apply ok_closes. now apply ok_pipeline.
Qed.
(** the whole way: lines written by any operations, closed, and read back *)
Theorem written_read_back : forall (bom cr : bool) nel lsps ops rs w w' sc sizes out j rest,
  do_ops (new_writer cr false (mksink (if bom then [BOM] else []) [] false)) ops = (rs, w) -> Forall plain_op ops -> Forall line_op ops -> close w = (None, w') ->
  let t := concat (map op_text ops) in Forall (fun c => is_assigned c = true) t ->
  stream_text sc = emitted (inner w') -> no_push sc -> bom_visible sc -> reads (new_input nel lsps) sc sizes = (out, j, rest) -> reached_end out -> delivered out = t.
Proof.
  intros bom cr nel lsps ops rs w w' sc sizes out j rest H HP HL HC t A E NP BV R EN.
  destruct (closed_lines_basic_text _ _ _ _ _ _ _ H HP HL HC) as [EM B]. destruct (closed_complete _ _ _ _ _ _ _ H HP HC) as (_ & L & _). fold t in EM, B, L.
  apply (read_back bom cr nel lsps t sc sizes out j rest); auto; [now apply basic_text_spec|]. rewrite E, EM. reflexivity.
Qed.
