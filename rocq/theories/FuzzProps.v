(** The assertions of the fuzz target hold. *)
From Coq Require Import NArith Arith List Bool Lia ZifyBool ZifyNat ZifyN.
From Verif Require Import Base Ucd UcdTables Norm Chars TextTables TextUtils UcdFacts NormFacts CharFacts DocTable SpecText TextFacts PipelineFacts DocFacts IsoFacts
  Utf8 Utf8Facts Input Output ReadFacts ReadInv ReadSession SpecRead ReadChunk SpecEscape EscapeFacts EscapeRun ReadProps KeepFacts ReadPieces SpecConv ConvFacts
  SpecWrite WriteFacts WriteProps Strings StringFacts ConcatFacts EdgeFacts SpecString StringProps ScalarFacts LossyProps JoinProps Fuzz.
Import ListNotations.
Local Open Scope N_scope.
Arguments N.add : simpl never.
Arguments N.leb : simpl never.
Arguments N.ltb : simpl never.
Arguments N.eqb : simpl never.
Local Opaque pipeline.

(** * Writing everything and closing *)
Lemma write_str_new : forall v r w, write_str (new_writer false false vec_sink) v = (r, w) ->
  (r = None <-> forallb allowedb v = true /\ starts_ok v) /\
  (r = None -> emitted (inner w) = pipeline v /\ wst w = WGround (text_ground (pipeline v))).
Proof.
  intros v r w H. destruct (op_refines false _ _ (OpWriteStr v) (new_refines false [] []) I) as [W1 W2]. cbn [do_op spec_op] in W1, W2.
  fold vec_sink in W1, W2. rewrite H in W1, W2. cbn [fst snd] in W1, W2. unfold spec_write in W1, W2. cbn [failed new_doc] in W1, W2.
  destruct (forallb allowedb v) eqn:EA; cbn [negb fst snd] in W1, W2.
  2:{ destruct r; [|discriminate]. split; [split; [discriminate|intros [? _]; discriminate]|discriminate]. }
  unfold spec_send in W1, W2. cbn [fresh new_doc andb outcomes] in W1, W2. rewrite pipeline_first in W1, W2.
  destruct (opt_all is_basic_text_start (head_opt v)) eqn:ES; cbn [negb fst snd] in W1, W2.
  - destruct r; [discriminate|]. split; [split; [intros _; split; [reflexivity|now apply starts_ok_iff]|reflexivity]|]. intros _.
    destruct W2 as (_ & _ & _ & E & _ & _ & K). cbn in E, K. split; [exact E|]. apply K.
  - destruct r; [|discriminate]. split; [split; [discriminate|]|discriminate]. intros [_ S]. apply starts_ok_iff in S. congruence.
Qed.

Lemma split_last : forall (x : N) l, ~ In x l \/ exists a b, l = a ++ x :: b /\ ~ In x b.
Proof.
  intros x. induction l as [|c l IH]; [left; intros []|]. destruct IH as [N|(a & b & -> & N)].
  - destruct (N.eq_dec c x) as [->|NE]; [right; now exists [], l|left; intros [E|I0]; [congruence|now apply N]].
  - right. now exists (c :: a), b.
Qed.
Lemma pipeline_line : forall v, line_terminated (pipeline v) <-> line_terminated v.
Proof.
  assert (NL : forall b, ~ In LF b -> b <> [] -> ~ line_terminated (pipeline b)).
  { intros b N NE [E|[t E]]; [exact (pipeline_nonnil _ NE E)|]. apply (pipeline_no_lf b N). rewrite E. change 10 with LF. apply in_or_app. right. now left. }
  intro v. split.
  - intro H. destruct (split_last LF v) as [N|(a & b & -> & N)].
    + destruct v as [|c v]; [now left|]. exfalso. apply (NL (c :: v)); [exact N|discriminate|exact H].
    + destruct b as [|c b]; [right; now exists a|]. exfalso. rewrite pipeline_LF in H. apply (NL (c :: b)); [exact N|discriminate|].
      destruct H as [E|[t E]]; [destruct (pipeline a); discriminate|].
      assert (NN : pipeline (c :: b) <> []) by (apply pipeline_nonnil; discriminate).
      destruct (pipeline (c :: b)) as [|y q _] using rev_ind; [congruence|]. right. exists q.
      change (LF :: q ++ [y]) with ((LF :: q) ++ [y]) in E. rewrite app_assoc in E. apply app_inj_tail in E. destruct E as [_ ->]. reflexivity.
  - intros [->|[t ->]]; [left; apply pipeline_nil|]. right. change 10 with LF. rewrite pipeline_LF, pipeline_nil. now eexists.
Qed.
Lemma ground_newline : forall t, text_ground t = Newline <-> line_terminated t.
Proof.
  intro t. unfold text_ground. destruct t as [|c t _] using rev_ind; [split; [now left|reflexivity]|]. rewrite last_opt_snoc. destruct (c =? LF) eqn:E.
  - apply N.eqb_eq in E. subst c. split; [intros _; right; now exists t|reflexivity].
  - split.
    + unfold ground_of. intro K. exfalso. revert K. repeat match goal with |- context [if ?b then _ else _] => destruct b end; discriminate.
    + intros [K|[u K]]; [destruct t; discriminate|]. apply app_inj_tail in K. destruct K as [_ ->]. apply N.eqb_neq in E. now elim E.
Qed.
Lemma line_ends : forall v, line_terminated v -> ends_ok v.
Proof. intros v [->|[t ->]] u c E; [destruct u; discriminate|]. apply app_inj_tail in E. destruct E as [_ <-]. exact end_LF. Qed.

Lemma all_allowed_iff : forall v, forallb allowedb v = true <-> Forall allowed v.
Proof. intro v. rewrite all_allowed. symmetry. apply Forall_allowed_clean. Qed.
Definition closes (v : list N) : Prop := strict_accepts v /\ line_terminated v.
Lemma new_close : forall v r w, write_str (new_writer false false vec_sink) v = (r, w) ->
  forall t, (r = None /\ exists w', close_into_inner w = (None, w') /\ emitted (inner w') = t) <-> closes v /\ t = pipeline v.
Proof.
  intros v r w H t. destruct (write_str_new _ _ _ H) as [A B]. unfold closes, strict_accepts. split.
  - intros [-> (w' & C & <-)]. destruct (proj1 A eq_refl) as [A1 A2]. destruct (B eq_refl) as [B1 B2].
    unfold close_into_inner, check_nl in C. rewrite B2 in C. destruct (text_ground (pipeline v)) eqn:G; try discriminate. injection C as <-.
    apply ground_newline in G. apply (proj1 (pipeline_line v)) in G. split; [|exact B1]. split; [|exact G]. split; [exact A2|]. split; [now apply line_ends|now apply all_allowed_iff].
  - intros [((S & _ & AL) & LT) ->]. assert (r = None) as -> by (apply A; split; [now apply all_allowed_iff|exact S]). split; [reflexivity|]. destruct (B eq_refl) as [B1 B2].
    unfold close_into_inner, check_nl. rewrite B2, (proj2 (ground_newline _) (proj2 (pipeline_line _) LT)). eauto.
Qed.

(** bytes *)
Lemma write_all_valid : forall w v, scalars v -> v <> [] -> write_all (length (encode_all v)) w (encode_all v) = Some (write_str w v).
Proof.
  intros w v S NE. assert (L : (0 < length (encode_all v))%nat).
  { destruct v as [|c v]; [congruence|]. cbn. rewrite app_length, encode_length. pose proof (utf8_len_pos c). lia. }
  assert (D : decode (encode_all v) = (v, [])). { pose proof (decode_encode v [] S eq_refl) as D. now rewrite app_nil_r in D. }
  destruct (encode_all v) as [|b bs] eqn:E; [cbn in L; lia|]. cbn [length write_all]. rewrite <- E in *. unfold write_bytes. rewrite D.
  destruct (write_str w v) as [[e|] w']; [reflexivity|]. rewrite E at 1. cbn [length]. rewrite E. cbn [skipn length]. rewrite skipn_all. destruct (length bs); reflexivity.
Qed.
Lemma write_all_invalid : forall w bs v b rest, decode bs = (v, b :: rest) -> exists r w', write_all (length bs) w bs = Some (Some r, w').
Proof.
  intros w bs v b rest D. pose proof (decode_spec _ _ _ D) as (S & EB & DN).
  destruct bs as [|x bs]; [discriminate D|]. cbn [length write_all]. unfold write_bytes. rewrite D. destruct v as [|c v].
  - eauto.
  - destruct (write_str w (c :: v)) as [[e|] w'] eqn:EW; [eauto|].
    assert (L : (length (x :: bs) - length (b :: rest) = length (encode_all (c :: v)))%nat) by (rewrite EB, app_length; lia).
    rewrite L. assert (P : (0 < length (encode_all (c :: v)))%nat).
    { cbn. rewrite app_length, encode_length. pose proof (utf8_len_pos c). lia. }
    assert (LB : (1 <= length bs)%nat) by (cbn [length] in L; lia).
    assert (SK : skipn (length (encode_all (c :: v))) (x :: bs) = b :: rest) by (rewrite EB, skipn_app, Nat.sub_diag, skipn_all; reflexivity).
    destruct (length (encode_all (c :: v))) as [|n]; [lia|]. rewrite SK. destruct (length bs) as [|m]; [lia|]. cbn [write_all].
    unfold write_bytes. unfold decode. rewrite (decode_go_stuck _ _ DN). eauto.
Qed.
Theorem write_and_close_spec : forall bs t, write_and_close bs = Some t <-> exists v, scalars v /\ bs = encode_all v /\ closes v /\ t = pipeline v.
Proof.
  intros bs t. unfold write_and_close. destruct (decode bs) as [v rest] eqn:D. pose proof (decode_spec _ _ _ D) as (S & EB & DN). destruct rest as [|b rest].
  - rewrite app_nil_r in EB. subst bs. transitivity (closes v /\ t = pipeline v).
    2:{ split; [intros [A B]; exists v; auto|]. intros (u & SU & EU & CU & ->). apply encode_all_inj in EU; auto. subst u. auto. }
    destruct v as [|c v].
    + cbn. rewrite pipeline_nil. unfold closes, strict_accepts. split.
      * intro E. injection E as <-. split; [|reflexivity]. split; [|now left]. split; [intros ? ? K; discriminate|]. split; [intros u ? K; destruct u; discriminate|constructor].
      * intros [_ ->]. reflexivity.
    + rewrite write_all_valid by (auto; discriminate). destruct (write_str _ (c :: v)) as [r w] eqn:EW. rewrite <- (new_close _ _ _ EW).
      destruct r as [e|]; [split; [discriminate|intros [? _]; discriminate]|]. destruct (close_into_inner w) as [[e|] w'].
      * split; [discriminate|]. intros [_ (? & ? & _)]. discriminate.
      * split; [intro E; injection E as <-; eauto|]. intros [_ (w'' & E & <-)]. injection E as <-. reflexivity.
  - destruct (write_all_invalid (new_writer false false vec_sink) _ _ _ _ D) as (r & w' & ->). split; [discriminate|].
    intros (u & SU & EU & _). pose proof (decode_encode u [] SU eq_refl) as D2. rewrite app_nil_r, <- EU, D in D2. discriminate.
Qed.

(** * The reader on text that can be written *)
Lemma closes_translate : forall v, closes v -> translate false false (without_bom v) = v.
Proof.
  intros v ((HS & HE & A) & LT). apply Forall_allowed_clean in A.
  assert (without_bom v = v) as ->.
  { destruct v as [|c v]; [reflexivity|]. inversion A as [|? ? C _]; subst. apply clean_special in C. cbn. change 0xFEFF with BOM.
    destruct (c =? BOM) eqn:E; [|reflexivity]. apply N.eqb_eq in E. intuition. }
  rewrite (translate_replaced _ _ _ _ (clean_replaced _ A)), concat_singles, guards_id, singles_newline by assumption.
  destruct LT as [->|[t ->]]; [reflexivity|]. rewrite last_opt_snoc. change (10 =? LF) with true. cbn. apply app_nil_r.
Qed.
Lemma utf8_lossy_valid : forall v, scalars v -> utf8_lossy (encode_all v) = v.
Proof.
  intros v S. unfold utf8_lossy. assert (L : (length v <= length (encode_all v))%nat) by (rewrite encode_all_length; apply length_le_str_len).
  revert L. generalize (length (encode_all v)) as f. induction S as [|c v HC S IH]; intros f L; [now destruct f|].
  destruct f as [|f]; [cbn in L; lia|]. cbn [encode_all flat_map]. 
  assert (D : decode1 (encode c ++ encode_all v) = Some (c, encode_all v)) by now apply decode1_encode.
  change (flat_map encode v) with (encode_all v). cbn [utf8_lossy_go].
  destruct (encode c ++ encode_all v) as [|b bs] eqn:E; [discriminate D|]. rewrite D. f_equal. apply IH. cbn in L. lia.
Qed.
Lemma utf8_lossy_scalars : forall bs, scalars (utf8_lossy bs).
Proof.
  intro bs. unfold utf8_lossy. generalize (length bs) as f. intro f. revert bs. induction f as [|f IH]; intro bs; [constructor|]. cbn [utf8_lossy_go].
  destruct bs as [|b bs]; [constructor|]. destruct (decode1 (b :: bs)) as [[c t]|] eqn:D; (constructor; [|apply IH]); [exact (proj1 (decode1_sound _ _ _ D))|reflexivity].
Qed.
Lemma without_bom_scalars : forall v, scalars v -> scalars (without_bom v).
Proof. intros [|c v] H; [exact H|]. cbn. destruct (c =? 0xFEFF); [now inversion H|exact H]. Qed.
Lemma translate_scalars : forall nel lsps v, scalars v -> scalars (translate nel lsps v).
Proof.
  intros nel lsps v H. unfold translate. destruct (trans nel lsps (true, Ground true) v) as [o x] eqn:E. destruct (fin End (last_opt o) x) as [o2 x2] eqn:E2.
  rewrite scalars_app. split; [eapply trans_scalars; eauto|eapply fin_scalars; eauto].
Qed.
Lemma pieces_scalars : forall W out, scalars W -> in_pieces W out -> scalars out.
Proof.
  intros W out H (ps & <- & _ & ->). clear - H. induction ps as [|p ps IH]; [constructor|]. cbn in *. rewrite scalars_app in *. destruct H. split; [now apply pipeline_scalars|now apply IH].
Qed.
Lemma reads_as_scalars : forall v s, scalars v -> reads_as v s -> scalars s.
Proof.
  intros v s H RA. destruct (reads_as_converted _ _ RA) as (script & E & NP & BV & ->). apply (pieces_scalars _ _ (translate_scalars false false _ (without_bom_scalars _ H))).
  rewrite <- E. now apply converted_pieces.
Qed.
Lemma closes_read : forall v s, closes v -> reads_as v s -> unguarded_text v -> s = pipeline v.
Proof.
  intros v s C RA U. destruct (reads_as_converted _ _ RA) as (script & E & NP & BV & ->).
  rewrite (converted_plain _ _ _ NP BV); rewrite E, (closes_translate _ C); [reflexivity|exact U].
Qed.
Lemma closes_read_at_once : forall v s, closes v -> reads_at_once v s -> s = pipeline v.
Proof.
  intros v s C (sizes & rs & j & rest & R & E & ->). destruct (one_chunk v) as (_ & _ & NF & _).
  rewrite (received_delivered _ _ _ _ _ _ (wf_new _ _) NF R). destruct (session_end _ _ _ _ _ _ _ R E) as (-> & _).
  now rewrite converted_whole, (closes_translate _ C).
Qed.
Lemma at_once_reads : forall v s, reads_at_once v s -> reads_as v s.
Proof.
  intros v s (sizes & rs & j & rest & R & E & ->). destruct (one_chunk v) as (T & NP & NF & BV). exists [Chunk v End], sizes, rs, j, rest. auto 10.
Qed.

(** * The assertions *)
Lemma accepts_iff : forall s, accepts s = true <-> string_ok s.
Proof.
  intro s. unfold accepts, str_from_text. rewrite <- basic_text_spec. destruct (is_basic_text s); [split; reflexivity|split; discriminate].
Qed.
Lemma line_nl : forall s, ends_nl s = true -> line_terminated s.
Proof. intros s H. unfold ends_nl in H. destruct (last_opt s) as [c|] eqn:E; [|discriminate]. apply last_opt_some in E. destruct E as [t ->]. apply N.eqb_eq in H. subst c. right. now exists t. Qed.
Lemma nl_line : forall s, line_terminated s -> match s with [] => true | _ => ends_nl s end = true.
Proof. intros s [->|[t ->]]; [reflexivity|]. unfold ends_nl. rewrite last_opt_snoc. now destruct (t ++ [10]). Qed.
Lemma ok_closes : forall s, string_ok s -> line_terminated s -> closes s.
Proof. intros s H L. split; [now apply ok_accepted|exact L]. Qed.
Lemma clean_none : forall s p, all_clean s -> (forall c, clean c = true -> p c = false) -> negb (existsb p s) = true.
Proof. intros s p H K. apply negb_true_iff. induction H as [|c s HC H IH]; [reflexivity|]. cbn. now rewrite K, IH. Qed.
Lemma clean_controls : forall c, clean c = true -> is_control c && negb (c =? LF) && negb (c =? TAB) = false.
Proof. intros c H. rewrite clean_bad in H. apply negb_true_iff in H. unfold tbl_bad in H. rewrite !in_ranges_app in H. cbn [in_ranges existsb fst snd] in H. unfold is_control, in_range, LF, TAB in *. lia. Qed.
Lemma first_failure_app : forall a b, first_failure a = None -> first_failure (a ++ b) = first_failure b.
Proof. induction a as [|[x []] a IH]; intros b H; cbn in *; auto; discriminate. Qed.

Lemma text_assertions : forall s, string_ok s -> line_terminated s -> first_failure
    [(NoBom, negb (existsb (fun c => c =? BOM) s)); (NoOrc, negb (existsb (fun c => c =? ORC) s));
      (TrailingNewline, match s with [] => true | _ => ends_nl s end);
      (NoControls, negb (existsb (fun c => is_control c && negb (c =? LF) && negb (c =? TAB)) s));
      (StreamSafeNfc, is_nfc_stream_safe s);
      (StartsWithStarter, match s with [] => true | c :: _ => ccc c =? 0 end)] = None.
Proof.
  intros s OK LT. pose proof OK as ((_ & _ & A) & ST & _). apply Forall_allowed_clean in A.
  assert (SUB : is_basic_text_substr s = true) by (apply substr_spec; apply OK). 
  cbn [first_failure].
  rewrite (clean_none s _ A) by (intros c C; apply clean_special in C; apply N.eqb_neq; intuition).
  rewrite (clean_none s _ A) by (intros c C; apply N.eqb_neq; intros ->; vm_compute in C; discriminate).
  rewrite nl_line by exact LT.
  rewrite (clean_none s _ A clean_controls).
  assert (is_nfc_stream_safe s = true) as ->.
  { unfold is_basic_text_substr in SUB. destruct (is_nfc_stream_safe s); [reflexivity|]. rewrite ?andb_false_r in SUB. cbn in SUB. discriminate. }
  destruct s as [|c s]; [reflexivity|]. now rewrite (start_ccc c (ST _ _ eq_refl)), N.eqb_refl.
Qed.

Lemma joins_itself : forall s, string_ok s -> line_terminated s -> accepts (s ++ s) = true.
Proof.
  intros s OK LT. apply accepts_iff, app_ok; auto. intros (t & x & c & u & E & _ & J). destruct LT as [->|[y ->]]; [destruct t; discriminate|].
  apply app_inj_tail in E. destruct E as [_ <-]. unfold hangul_join in J. lia.
Qed.

Theorem fuzz_reads : forall bs s, reads_as (utf8_lossy bs) s ->
  (forall v, scalars v -> bs = encode_all v -> closes v -> s = pipeline v) -> fuzz bs s = None.
Proof.
  intros bs s RA AG. destruct (reads_as_ok _ _ RA) as (OK & LT & PR). pose proof (reads_as_scalars _ _ (utf8_lossy_scalars bs) RA) as SC.
  unfold fuzz. rewrite first_failure_app by now apply text_assertions.
  assert (LAST : first_failure [(ClosedUnderConcatenation, accepts (s ++ s))] = None) by (cbn; now rewrite joins_itself).
  rewrite first_failure_app; [exact LAST|].
  destruct (write_and_close bs) as [t|] eqn:W.
  - apply write_and_close_spec in W. destruct W as (v & S & EB & C & ->). rewrite (AG v S EB C). cbn [first_failure]. rewrite list_eqb_refl.
    rewrite (proj2 (accepts_iff _)); [reflexivity|]. rewrite <- (AG v S EB C). exact OK.
  - assert (NW : forall v, scalars v -> bs = encode_all v -> ~ closes v).
    { intros v S EB C. assert (K : write_and_close bs = Some (pipeline v)) by (apply write_and_close_spec; exists v; auto). congruence. }
    assert (NS : encode_all s <> bs) by (intro E; apply (NW s SC (eq_sym E)); now apply ok_closes).
    destruct (decode bs) as [u rest] eqn:D. pose proof (decode_spec _ _ _ D) as (S & EB & DN). destruct rest as [|b rest].
    + rewrite app_nil_r in EB. cbn [first_failure].
      assert (list_eqb s u = false) as ->. { destruct (list_eqb s u) eqn:E; [|reflexivity]. apply list_eqb_eq in E. subst u. now elim NS. }
      cbn [negb]. destruct (ends_nl u) eqn:EN; [|reflexivity]. destruct (accepts u) eqn:EA; [|reflexivity]. exfalso. apply (NW u S EB). apply ok_closes; [now apply accepts_iff|now apply line_nl].
    + cbn [first_failure]. assert (list_eqb (encode_all s) bs = false) as ->. { destruct (list_eqb (encode_all s) bs) eqn:E; [|reflexivity]. now apply list_eqb_eq in E. }
      cbn [negb]. unfold accepts_bytes, from_bytes. rewrite D. now rewrite andb_false_r.
Qed.
(** Whatever the cuts, only the comparison with the writer can fail. *)
Theorem fuzz_any : forall bs s a, reads_as (utf8_lossy bs) s -> fuzz bs s = Some a -> a = WriterAgrees.
Proof.
  intros bs s a RA F. destruct (write_and_close bs) as [t|] eqn:W.
  - destruct (reads_as_ok _ _ RA) as (OK & LT & PR). pose proof W as W2. apply write_and_close_spec in W. destruct W as (v & S & EB & C & ->).
    unfold fuzz in F. rewrite first_failure_app in F by now apply text_assertions. rewrite W2 in F. cbn [app first_failure] in F.
    destruct (list_eqb s (pipeline v)); [|congruence]. rewrite (proj2 (accepts_iff _)), joins_itself in F; auto; [discriminate|].
    apply accepted_ok, accepted_iff. apply C.
  - rewrite fuzz_reads in F; [discriminate|exact RA|]. intros v S EB C.
    assert (K : write_and_close bs = Some (pipeline v)) by (apply write_and_close_spec; exists v; auto). congruence.
Qed.
Theorem fuzz_unguarded : forall bs s, reads_as (utf8_lossy bs) s -> unguarded_text (utf8_lossy bs) -> fuzz bs s = None.
Proof.
  intros bs s RA U. apply fuzz_reads; [exact RA|]. intros v S -> C. rewrite utf8_lossy_valid in * by exact S. now apply closes_read.
Qed.
Theorem fuzz_at_once : forall bs s, reads_at_once (utf8_lossy bs) s -> fuzz bs s = None.
Proof.
  intros bs s RA. apply fuzz_reads; [now apply at_once_reads|]. intros v S -> C. rewrite utf8_lossy_valid in * by exact S. now apply closes_read_at_once.
Qed.
