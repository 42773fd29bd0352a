(** Dropping a writer, and writers with colours. *)
From Coq Require Import NArith Arith List Bool Lia ZifyBool ZifyNat ZifyN.
From Verif Require Import Base Ucd UcdTables Norm Chars TextTables TextUtils UcdFacts NormFacts CharFacts DocTable SpecText TextFacts PipelineFacts
  IsoFacts KeepFacts Utf8 Utf8Facts Output SpecEscape SpecWrite WriteFacts.
Import ListNotations.
Local Open Scope N_scope.
Arguments N.add : simpl never.
Arguments N.leb : simpl never.
Arguments N.ltb : simpl never.
Arguments N.eqb : simpl never.
Local Opaque pipeline.

(** ** Drop *)
Definition quiet (w : writer) : Prop := wst w = WGround Newline.
(** A failed operation that has given up the stream below. *)
Definition dead (w : writer) : Prop := wst w = WGround Newline /\ abandoned (inner w) = true.

Lemma sm_char_err : forall w c e w', sm_char w c = (Some e, w') -> dead w'.
Proof.
  intros w c e w' H. unfold sm_char in H.
  repeat match type of H with context [match ?x with _ => _ end] => destruct x end; try discriminate H; injection H as <- <-; split; reflexivity.
Qed.
Lemma sm_chars_err : forall cs w e w', sm_chars w cs = (Some e, w') -> dead w'.
Proof.
  induction cs as [|c cs IH]; intros w e w' H; [discriminate|]. cbn [sm_chars] in H. destruct (sm_char w c) as [[e1|] w1] eqn:E; [|eauto].
  injection H as <- <-. exact (sm_char_err _ _ _ _ E).
Qed.
Lemma sm_char_same : forall w c r w', sm_char w c = (r, w') -> (r = None -> inner w' = inner w) /\ crlf w' = crlf w /\ ansi w' = ansi w /\ (abandoned (inner w) = true -> abandoned (inner w') = true) /\ emitted (inner w') = emitted (inner w).
Proof.
  intros w c r w' H. unfold sm_char in H.
  repeat match type of H with context [match ?x with _ => _ end] => destruct x end; injection H as <- <-; repeat split; intros; cbn; try reflexivity; try discriminate; assumption.
Qed.
Lemma sm_chars_same : forall cs w r w', sm_chars w cs = (r, w') -> (r = None -> inner w' = inner w) /\ crlf w' = crlf w /\ ansi w' = ansi w /\ (abandoned (inner w) = true -> abandoned (inner w') = true) /\ emitted (inner w') = emitted (inner w).
Proof.
  induction cs as [|c cs IH]; intros w r w' H; cbn [sm_chars] in H; [injection H as <- <-; auto 10|].
  destruct (sm_char w c) as [[e1|] w1] eqn:E; destruct (sm_char_same _ _ _ _ E) as (A & B & C & D & F).
  - injection H as <- <-. repeat split; auto; discriminate.
  - destruct (IH _ _ _ H) as (A' & B' & C' & D' & F'). repeat split; try congruence; auto. intro K. rewrite A', A; auto.
Qed.
Lemma crlf_rest_props : forall segs w r w', crlf_rest w segs = (r, w') ->
  (r <> None -> dead w') /\ (abandoned (inner w) = true -> abandoned (inner w') = true) /\ emitted (inner w') = emitted (inner w).
Proof.
  induction segs as [|s segs IH]; intros w r w' H; cbn [crlf_rest] in H; [injection H as <- <-; repeat split; auto; congruence|].
  destruct (state_machine (push_crlf w) s) as [[e|] w1] eqn:E; unfold state_machine in E; destruct (sm_chars_same _ _ _ _ E) as (_ & _ & _ & D & F).
  - injection H as <- <-. split; [intros _; exact (sm_chars_err _ _ _ _ E)|split; [exact D|exact F]].
  - destruct (IH _ _ _ H) as (A & B & G). split; [exact A|]. split; [intro K; apply B, D, K|]. rewrite G. exact F.
Qed.
Definition gives_up (w : writer) (r : wresult) (w' : writer) : Prop :=
  (r <> None -> dead w') /\ (abandoned (inner w) = true -> r <> None /\ emitted (inner w') = emitted (inner w)).
Lemma write_buffer_props : forall w r w', write_buffer w = (r, w') -> gives_up w r w'.
Proof.
  intros w r w' H. unfold write_buffer in H. destruct (_ && _); [injection H as <- <-; split; [intros _; split; reflexivity|split; [discriminate|reflexivity]]|].
  cbn [set_exp inner buffer] in H. unfold sink_write in H. unfold gives_up. destruct (abandoned (inner w)) eqn:EA.
  - injection H as <- <-. split; [intros _; split; reflexivity|split; [discriminate|reflexivity]].
  - destruct (script (inner w)) as [|[|n] o]; injection H as <- <-; (split; [intro K; (congruence || split; reflexivity)|congruence]).
Qed.
Lemma first_phase : forall w s r w', (if crlf w then crlf_segs w (split_lf s) else state_machine w s) = (r, w') ->
  (r <> None -> dead w') /\ (abandoned (inner w) = true -> abandoned (inner w') = true) /\ emitted (inner w') = emitted (inner w).
Proof.
  intros w s r w' E. destruct (crlf w).
  - unfold crlf_segs in E. destruct (split_lf s) as [|x l]; [injection E as <- <-; repeat split; auto; congruence|].
    destruct (state_machine w x) as [[e1|] w2] eqn:E1; destruct (sm_chars_same _ _ _ _ E1) as (_ & _ & _ & D & F).
    + injection E as <- <-. split; [intros _; exact (sm_chars_err _ _ _ _ E1)|auto].
    + destruct (crlf_rest_props _ _ _ _ E) as (A & B & G). repeat split; try (now apply A); auto. congruence.
  - destruct (sm_chars_same _ _ _ _ E) as (_ & _ & _ & D & F). split; [|auto]. intro K. destruct r; [|congruence]. exact (sm_chars_err _ _ _ _ E).
Qed.
Lemma write_str_props : forall w s r w', write_str w s = (r, w') -> gives_up w r w'.
Proof.
  intros w s r w' H. unfold write_str, and_then in H. destruct (if crlf w then crlf_segs w (split_lf s) else state_machine w s) as [[e|] w1] eqn:E;
    destruct (first_phase _ _ _ _ E) as (A & B & G).
  - injection H as <- <-. split; [exact A|]. split; [discriminate|exact G].
  - destruct (write_buffer_props _ _ _ H) as [A' B']. split; [exact A'|]. intro K. destruct (B' (B K)). split; [assumption|congruence].
Qed.
Lemma write_text_props : forall w s r w', write_text w s = (r, w') -> gives_up w r w'.
Proof.
  intros w s r w' H. unfold write_text in H. destruct (write_buffer_props _ _ _ H) as [A B]. split; [exact A|]. intro K. clear A H.
  match type of B with abandoned (inner ?x) = true -> _ => set (w1 := x) in * end.
  assert (EI : inner w1 = inner w).
  { unfold w1. destruct (crlf w); [|reflexivity]. destruct (split_lf s) as [|x l]; [reflexivity|].
    assert (G : forall l w, inner (fold_left (fun w seg => push_text_seg (push_crlf w) seg) l w) = inner w)
      by (intro m; induction m as [|y m IH]; intros v; [reflexivity|cbn [fold_left]; now rewrite IH]).
    now rewrite G. }
  rewrite EI in B. exact (B K).
Qed.
Lemma is_write_props : forall o w r w', is_write o = true -> do_op w o = (r, w') -> gives_up w r w'.
Proof.
  intros o w r w' HO H. destruct o as [s|s|bs| | |]; try discriminate HO; cbn [do_op] in H; [exact (write_str_props _ _ _ _ H)|exact (write_text_props _ _ _ _ H)|].
  unfold write_bytes in H. destruct (decode bs) as [cs rest]. destruct rest as [|b rest].
  - destruct (write_str w cs) as [r0 w0] eqn:E. assert (H' : (r0, w0) = (r, w')) by (destruct cs; exact H). injection H' as <- <-. exact (write_str_props _ _ _ _ E).
  - destruct cs as [|c cs].
    + injection H as <- <-. split; [intros _; split; reflexivity|split; [discriminate|reflexivity]].
    + destruct (write_str w (c :: cs)) as [r0 w0] eqn:E. injection H as <- <-. exact (write_str_props _ _ _ _ E).
Qed.
Lemma check_nl_props : forall w r w', check_nl w = (r, w') -> quiet w' /\ (r <> None -> dead w') /\ (r = None -> w' = w).
Proof. intros w r w' H. unfold check_nl in H. destruct (wst w) as [[]| |] eqn:E; injection H as <- <-; repeat split; try congruence; auto; discriminate. Qed.
Lemma close_quiet : forall w r w', close w = (r, w') -> quiet w'.
Proof.
  intros w r w' H. unfold close, and_then in H. destruct (check_nl (set_exp w true)) as [[e|] w1] eqn:E; destruct (check_nl_props _ _ _ E) as (Q & _ & K).
  - injection H as <- <-. exact Q.
  - destruct (sink_call (inner w1)) as [b k]. injection H as <- <-. exact Q.
Qed.
Lemma dead_op : forall w o r w', dead w -> do_op w o = (r, w') -> dead w' /\ emitted (inner w') = emitted (inner w) /\ (o <> OpAbandon -> r <> None).
Proof.
  intros w o r w' [D1 D2] H. destruct (is_write o) eqn:EW.
  - destruct (is_write_props _ _ _ _ EW H) as [A B]. destruct (B D2) as [K1 K2]. auto.
  - destruct o as [s|s|bs| | |]; try discriminate EW; cbn [do_op] in H.
    + unfold flush in H. rewrite D1 in H. unfold sink_call, sink_write in H. rewrite D2 in H. injection H as <- <-. repeat split; auto. discriminate.
    + unfold close, and_then, check_nl in H. cbn [set_exp wst] in H. rewrite D1 in H. unfold sink_call, sink_write in H. cbn [inner set_exp] in H. rewrite D2 in H.
      injection H as <- <-. repeat split; auto. discriminate.
    + injection H as <- <-. repeat split; auto.
Qed.
Lemma dead_ops : forall os w, dead w -> dead (snd (do_ops w os)).
Proof.
  induction os as [|o os IH]; intros w D; [exact D|]. cbn [do_ops]. destruct (do_op w o) as [r w'] eqn:E. specialize (IH w' (proj1 (dead_op _ _ _ _ D E))).
  destruct (do_ops w' os). exact IH.
Qed.
Theorem drop_after_failure : forall w o e w' ops, do_op w o = (Some e, w') -> is_write o = true -> drop_panics (snd (do_ops w' ops)) = false.
Proof.
  intros w o e w' ops H HO. destruct (is_write_props _ _ _ _ HO H) as [A _]. destruct (dead_ops ops w' (A ltac:(discriminate))) as [K _].
  unfold drop_panics. now rewrite K.
Qed.
Theorem drop_after_abandon : forall w ops, drop_panics (snd (do_ops (abandon w) ops)) = false.
Proof.
  intros w ops. destruct (dead_ops ops (abandon w)) as [K _]; [split; reflexivity|]. unfold drop_panics. now rewrite K.
Qed.
Theorem drop_after_close : forall w r w', close w = (r, w') -> drop_panics w' = false.
Proof. intros w r w' H. apply close_quiet in H. unfold drop_panics. now rewrite H. Qed.
(** Once an operation has given up, every later write, flush or close fails and
    nothing more is sent. *)
Theorem dead_silent : forall w o e w' ops, do_op w o = (Some e, w') -> is_write o = true ->
  emitted (inner (snd (do_ops w' ops))) = emitted (inner w') /\ Forall2 (fun o r => o <> OpAbandon -> r <> None) ops (fst (do_ops w' ops)).
Proof.
  intros w o e w' ops H HO. destruct (is_write_props _ _ _ _ HO H) as [A _]. specialize (A ltac:(discriminate)). clear H HO w o e. revert w' A.
  induction ops as [|o ops IH]; intros w D; [split; [reflexivity|constructor]|]. cbn [do_ops]. destruct (do_op w o) as [r w'] eqn:E.
  destruct (dead_op _ _ _ _ D E) as (D' & K1 & K2). specialize (IH w' D'). destruct (do_ops w' ops) as [rs w'']. cbn [fst snd] in *. destruct IH as [IH1 IH2].
  split; [congruence|]. now constructor.
Qed.

(** ** Colours *)
Lemma coloured_app : forall a b, coloured a -> coloured b -> coloured (a ++ b).
Proof.
  intros a b HA HB. induction HA as [|c t HC HT IH|ps t HP HT IH]; [exact HB|now constructor|].
  cbn [app]. rewrite <- app_assoc. cbn [app]. now constructor.
Qed.
Lemma allowed_coloured : forall s, Forall allowed s -> coloured s.
Proof. induction 1; constructor; auto. Qed.

Definition okesc (c : N) : Prop := allowed c \/ c = ESC \/ c = SUB.
Lemma conv_okesc : forall n s, (length s <= n)%nat -> Forall okesc s -> Forall okesc (conv s).
Proof.
  induction n as [|n IH]; intros s HL H.
  - destruct s; [rewrite conv_nil; constructor|cbn in HL; lia].
  - destruct (all_clean_dec s) as [C|C].
    + eapply Forall_impl; [|apply conv_clean; eapply Forall_impl; [|exact C]; intros c HC; now apply clean_good].
      intros c HC. left. now apply allowed_clean.
    + assert (X : exists x, In x s /\ (x = ESC \/ x = SUB)).
      { apply (proj1 (Exists_exists (fun x => x = ESC \/ x = SUB) s)). clear IH HL. induction H as [|c s HC HS IH]; [elim C; constructor|].
        destruct HC as [HC|HC]; [|now constructor]. right. apply IH. intro K. apply C. constructor; [now apply allowed_clean|exact K]. }
      destruct X as (x & HI & HX). apply in_split in HI. destruct HI as (a & b & ->).
      assert (B : boring x) by (apply kept_boring; destruct HX; subst; reflexivity). rewrite conv_split by exact B.
      rewrite app_length in HL. cbn [length] in HL. apply Forall_app in H. destruct H as [H1 H2]. inversion H2; subst.
      apply Forall_app. split; [apply IH; [lia|exact H1]|]. constructor; [now right|]. apply IH; [lia|assumption].
Qed.
Lemma converted_okesc : forall s, Forall okesc (converted s).
Proof.
  intro s. assert (C : Forall okesc (categorize s)).
  { apply Forall_forall. intros x HX. unfold categorize in HX. apply in_map_iff in HX. destruct HX as (c & <- & _). unfold categorize1.
    destruct (check_basic_text_char c) eqn:E; [right; now right|]. destruct (N.eq_dec c ESC) as [->|NE]; [right; now left|].
    left. apply allowed_clean. unfold clean, check_ok. rewrite E. lia. }
  unfold converted. destruct (_ && _); [exact C|]. rewrite pipeline_conv. apply (conv_okesc _ _ (le_n _)).
  apply Forall_forall. intros x HX. unfold isolate_unassigned in HX. apply iso_in in HX. rewrite Forall_forall in C. destruct HX as [HX| ->]; [auto|].
  left. apply allowed_clean. exact clean_CGJ.
Qed.

Definition esc_ok (w : writer) : Prop :=
  match wst w with
  | WGround _ => True
  | WEsc => escseq w = [ESC]
  | WCsi => exists ps, escseq w = ESC :: 0x5B :: ps /\ Forall parameter ps
  end.
(** [t]: what was sent before. *)
Definition ends_at_line (t : list N) (w : writer) : Prop := wst w = WGround Newline -> line_terminated (t ++ buffer w).
Definition col_inv (t : list N) (w : writer) : Prop := coloured (buffer w) /\ esc_ok w /\ ends_at_line t w.
Lemma ends_snoc : forall t b, line_terminated (t ++ b ++ [0xA]).
Proof. intros t b. right. exists (t ++ b). now rewrite app_assoc. Qed.
Lemma sm_char_col : forall t w c w', sm_char w c = (None, w') -> col_inv t w -> okesc c -> col_inv t w'.
Proof.
  intros t w c w' H (H1 & H2 & H3) HC. unfold sm_char in H. unfold col_inv, esc_ok, ends_at_line in *. destruct (wst w) as [g| |] eqn:EW.
  - destruct ((c =? ESC) && ansi w) eqn:E1; [injection H as <-; cbn; repeat split; auto; discriminate|].
    destruct (c =? LF) eqn:E2.
    + injection H as <-. cbn. split; [apply coloured_app; [exact H1|]; repeat constructor; apply allowed_clean; exact clean_LF|]. split; [exact I|]. intros _. apply ends_snoc.
    + destruct (c =? SUB) eqn:E3; [discriminate|]. destruct (c =? ESC) eqn:E4; [discriminate|]. injection H as <-. cbn.
      split; [apply coloured_app; [exact H1|]|split; [exact I|unfold ground_of; destruct (is_basic_text_end c); discriminate]].
      constructor; [|constructor]. destruct HC as [HC|[HC|HC]]; [exact HC|lia|lia].
  - destruct (c =? 91) eqn:E1; [|discriminate]. injection H as <-. cbn. split; [exact H1|]. split; [|discriminate]. exists []. rewrite H2. now split.
  - destruct H2 as (ps & E & HP). destruct (in_range c 32 63) eqn:E1; [|destruct (c =? 109) eqn:E2; [|discriminate]]; injection H as <-; cbn.
    + split; [exact H1|]. split; [|discriminate]. exists (ps ++ [c]). rewrite E. split; [reflexivity|]. apply Forall_app. split; [exact HP|]. constructor; [|constructor].
      unfold in_range, parameter in *. lia.
    + split; [|split; [exact I|discriminate]]. apply coloured_app; [exact H1|]. rewrite E. apply (col_sgr ps []); [exact HP|constructor].
Qed.
Lemma sm_chars_col : forall cs t w w', sm_chars w cs = (None, w') -> col_inv t w -> Forall okesc cs -> col_inv t w'.
Proof.
  induction cs as [|c cs IH]; intros t w w' H HI HC; cbn [sm_chars] in H; [now injection H as <-|]. inversion HC; subst.
  destruct (sm_char w c) as [[e|] w1] eqn:E; [discriminate|]. eapply IH; [exact H| |assumption]. eapply sm_char_col; eauto.
Qed.

(** [p]: what the stream below had accepted at the start *)
Definition col_state (p : list N) (w : writer) : Prop :=
  crlf w = false /\ exists t rest, coloured t /\ p ++ t = emitted (inner w) ++ rest /\
    (abandoned (inner w) = false -> rest = [] /\ buffer w = [] /\ esc_ok w /\ (wst w = WGround Newline -> line_terminated t)).
Lemma give_up_col : forall p w w', col_state p w -> dead w' -> crlf w' = crlf w -> emitted (inner w') = emitted (inner w) -> col_state p w'.
Proof.
  intros p w w' (C & t & rest & CT & E & _) [D1 D2] HC HE. split; [congruence|]. exists t, rest. rewrite HE. split; [exact CT|]. split; [exact E|]. congruence.
Qed.
Lemma write_buffer_col : forall p w r w' t, write_buffer w = (r, w') -> crlf w = false -> coloured t -> p ++ t = emitted (inner w) ->
  abandoned (inner w) = false -> coloured (buffer w) -> esc_ok w -> ends_at_line t w -> col_state p w'.
Proof.
  intros p w r w' t H C CT E A CB EO EN. unfold write_buffer in H. destruct (_ && _).
  - injection H as <- <-. split; [exact C|]. exists t, []. cbn. rewrite app_nil_r. split; [exact CT|]. split; [exact E|]. discriminate.
  - cbn [set_exp inner buffer] in H. unfold sink_write in H. rewrite A in H.
    assert (CC : coloured (t ++ buffer w)) by now apply coloured_app.
    destruct (script (inner w)) as [|[|n] o]; injection H as <- <-; (split; [exact C|]); exists (t ++ buffer w).
    + exists []. cbn. rewrite app_nil_r, app_assoc, E. repeat split; auto.
    + exists []. cbn. rewrite app_nil_r, app_assoc, E. repeat split; auto.
    + exists (skipn n (buffer w)). cbn. rewrite <- app_assoc, firstn_skipn, app_assoc, E. split; [exact CC|]. split; [reflexivity|discriminate].
Qed.
Lemma write_str_col : forall p w s r w', write_str w s = (r, w') -> col_state p w -> col_state p w'.
Proof.
  intros p w s r w' H CS. pose proof CS as (C & t & rest & CT & E & K). pose proof H as H0. unfold write_str, and_then in H. rewrite C in H. destruct (abandoned (inner w)) eqn:EA.
  - destruct (write_str_props _ _ _ _ H0) as [G1 G2]. destruct (G2 EA) as [G3 G4]. apply (give_up_col p w w' CS (G1 G3)); [|exact G4].
    destruct (state_machine w s) as [[e|] w1] eqn:E1; destruct (sm_chars_same _ _ _ _ E1) as (_ & Q & _); [now injection H as <- <-|].
    unfold write_buffer in H. destruct (_ && _); [injection H as <- <-; exact Q|]. destruct (sink_write _ _) as [[] k]; injection H as <- <-; exact Q.
  - destruct (K eq_refl) as (-> & B & EO & EN). rewrite app_nil_r in E.
    destruct (state_machine w s) as [[e|] w1] eqn:E1; destruct (sm_chars_same _ _ _ _ E1) as (Q1 & Q2 & Q3 & Q4 & Q5).
    + injection H as <- <-. apply (give_up_col p w w1 CS); auto. exact (sm_chars_err _ _ _ _ E1).
    + assert (CI : col_inv t w1).
      { eapply sm_chars_col; [exact E1| |apply converted_okesc]. unfold col_inv, ends_at_line. rewrite B, app_nil_r. repeat split; auto. constructor. }
      destruct CI as (I1 & I2 & I3). rewrite <- (Q1 eq_refl) in E, EA. apply (write_buffer_col p w1 r w' t H); auto. congruence.
Qed.
Lemma write_text_col : forall p w s r w', write_text w s = (r, w') -> s <> [] -> is_basic_text_substr s = true -> col_state p w -> col_state p w'.
Proof.
  intros p w s r w' H HN HS CS. pose proof CS as (C & t & rest & CT & E & K). destruct (abandoned (inner w)) eqn:EA.
  - destruct (write_text_props _ _ _ _ H) as [G1 G2]. destruct (G2 EA) as [G3 G4]. apply (give_up_col p w w' CS (G1 G3)); [|exact G4].
    rewrite write_text_eq in H by exact HN. unfold write_buffer in H. destruct (_ && _); [injection H as <- <-; reflexivity|]. destruct (sink_write _ _) as [[] k]; injection H as <- <-; reflexivity.
  - destruct (K eq_refl) as (-> & B & EO & EN). rewrite app_nil_r in E. rewrite write_text_eq in H by exact HN.
    eapply (write_buffer_col p _ r w' t H); auto.
    + cbn. rewrite B, C. cbn. apply allowed_coloured. apply substr_spec in HS. exact (proj2 (proj2 HS)).
    + unfold esc_ok. cbn. destruct s; [congruence|]. exact I.
    + unfold ends_at_line. cbn. rewrite B, C. cbn [as_sent app]. destruct (text_ground_cases s) as [[G [->|L]]|(c & L & NL & G)]; [congruence| |].
      * intros _. apply last_opt_some in L. destruct L as [u ->]. apply ends_snoc.
      * destruct s; [congruence|]. cbn [after]. rewrite G. unfold ground_of. destruct (is_basic_text_end c); discriminate.
Qed.
Lemma op_col : forall p w o r w', do_op w o = (r, w') -> plain_op o -> col_state p w -> col_state p w'.
Proof.
  intros p w o r w' H HP CS. pose proof CS as (C & t & rest & CT & E & K). destruct o as [s|s|bs| | |]; cbn [do_op] in H.
  - eapply write_str_col; eauto.
  - destruct HP. eapply write_text_col; eauto.
  - unfold write_bytes in H. destruct (decode bs) as [cs rs]. destruct rs as [|b rs].
    + destruct (write_str w cs) as [r0 w0] eqn:EW. assert (H' : (r0, w0) = (r, w')) by (destruct cs; exact H). injection H' as <- <-. eapply write_str_col; eauto.
    + destruct cs as [|c cs].
      * injection H as <- <-. apply (give_up_col p w _ CS); try reflexivity. split; reflexivity.
      * destruct (write_str w (c :: cs)) as [r0 w0] eqn:EW. injection H as <- <-. eapply write_str_col; eauto.
  - unfold flush in H. destruct (wst w) as [[]| |] eqn:EW; try (injection H as <- <-; now (apply (give_up_col p w _ CS); try reflexivity; split; reflexivity));
      try (injection H as <- <-; exact CS); unfold sink_call, sink_write in H; destruct (abandoned (inner w)) eqn:EA;
      try (injection H as <- <-; split; [exact C|]; exists t, rest; cbn; rewrite EA; repeat split; auto; congruence);
      destruct (K eq_refl) as (-> & B & EO & EN); destruct (script (inner w)) as [|[|n] o]; injection H as <- <-; (split; [exact C|]); exists t, []; cbn;
      rewrite ?firstn_nil, ?app_nil_r in *; unfold esc_ok in *; cbn; rewrite EW in *; repeat split; auto.
  - unfold close, check_nl, and_then in H. cbn [set_exp wst] in H.
    destruct (wst w) as [[]| |] eqn:EW; try (injection H as <- <-; now (apply (give_up_col p w _ CS); try reflexivity; split; reflexivity)).
    unfold sink_call, sink_write in H. cbn [inner set_exp] in H. destruct (abandoned (inner w)) eqn:EA.
    + injection H as <- <-; split; [exact C|]; exists t, rest; cbn; rewrite EA; repeat split; auto; congruence.
    + destruct (K eq_refl) as (-> & B & EO & EN); destruct (script (inner w)) as [|[|n] o]; injection H as <- <-; (split; [exact C|]); exists t, []; cbn;
      rewrite ?firstn_nil, ?app_nil_r in *; unfold esc_ok in *; cbn; rewrite EW in *; repeat split; auto.
  - injection H as <- <-. apply (give_up_col p w _ CS); try reflexivity. split; reflexivity.
Qed.
Lemma ops_col : forall os p w, Forall plain_op os -> col_state p w -> col_state p (snd (do_ops w os)).
Proof.
  induction os as [|o os IH]; intros p w HP CS; [exact CS|]. inversion HP; subst. cbn [do_ops]. destruct (do_op w o) as [r w'] eqn:E.
  specialize (IH p w' ltac:(assumption) (op_col _ _ _ _ _ E ltac:(assumption) CS)). destruct (do_ops w' os). exact IH.
Qed.
Lemma new_col : forall an p o, col_state p (new_writer false an (mksink p o false)).
Proof. intros an p o. split; [reflexivity|]. exists [], []. cbn. repeat split; try constructor; auto. Qed.
Theorem colours_only : forall an p o ops rs w, do_ops (new_writer false an (mksink p o false)) ops = (rs, w) -> Forall plain_op ops ->
  exists t rest, coloured t /\ p ++ t = emitted (inner w) ++ rest /\ (abandoned (inner w) = false -> rest = []).
Proof.
  intros an p o ops rs w H HP. pose proof (ops_col ops p _ HP (new_col an p o)) as K. rewrite H in K. destruct K as (_ & t & rest & CT & E & K).
  exists t, rest. split; [exact CT|]. split; [exact E|]. intro A. exact (proj1 (K A)).
Qed.
Theorem colour_closed : forall an p o ops rs w w', do_ops (new_writer false an (mksink p o false)) ops = (rs, w) -> Forall plain_op ops -> close w = (None, w') ->
  exists t, coloured t /\ line_terminated t /\ emitted (inner w') = p ++ t.
Proof.
  intros an p o ops rs w w' H HP HC. pose proof (ops_col ops p _ HP (new_col an p o)) as K. rewrite H in K. cbn [snd] in K.
  pose proof (op_col p w OpClose None w' HC I K) as (_ & t & rest & CT & E & L). assert (AB : abandoned (inner w') = false).
  { unfold close, check_nl, and_then in HC. cbn [set_exp wst] in HC. destruct (wst w) as [[]| |]; try discriminate.
    unfold sink_call, sink_write in HC. cbn [inner set_exp] in HC. destruct (abandoned (inner w)); [discriminate|]. destruct (script (inner w)) as [|[|n] oo]; try discriminate; injection HC as <-; reflexivity. }
  destruct (L AB) as (-> & _ & _ & LT). exists t. split; [exact CT|]. split; [apply LT; exact (close_quiet _ _ _ HC)|]. now rewrite E, app_nil_r.
Qed.
