(** Consequences of the session theorems, in the form used by PropRead.v. *)
From Coq Require Import NArith Arith List Bool Lia ZifyBool ZifyNat ZifyN.
From Verif Require Import Base Ucd Norm Chars TextTables TextUtils Utf8 Input SpecRead SpecEscape UcdFacts NormFacts CharFacts SpecText TextFacts PipelineFacts IsoFacts Utf8Facts ReadFacts ReadInv ReadSession ReadChunk ScalarFacts EscapeFacts EscapeRun.
Import ListNotations.
Local Open Scope N_scope.
Arguments N.add : simpl never.
Arguments N.leb : simpl never.
Arguments N.ltb : simpl never.
Arguments N.eqb : simpl never.

Transparent ccc cd kd compose qc_nfc is_public_assigned cjk_variant.
Lemma chk_not_start_pub : ranges_all is_public_assigned tbl_not_start = true.
Proof. vm_compute. reflexivity. Qed.
Global Opaque ccc cd kd compose qc_nfc is_public_assigned cjk_variant.
Lemma nonstart_assigned : forall c, is_basic_text_start c = false -> is_assigned c = true.
Proof.
  intros c H. destruct (is_assigned c) eqn:E; [reflexivity|]. rewrite start_intro in H; [discriminate| |].
  - exact (proj1 (b_inert _ (unassigned_boring _ E))).
  - destruct (in_ranges c tbl_not_start) eqn:ER; [|reflexivity]. apply (ranges_all_spec _ _ _ chk_not_start_pub) in ER.
    unfold is_assigned in E. now rewrite ER in E.
Qed.

Lemma replace_assigned : forall c x, is_assigned c = true -> In x (replace c) -> is_assigned x = true.
Proof.
  intros c x H HX. unfold replace in HX.
  repeat match type of HX with context [if ?b then _ else _] => destruct b;
    [cbn [In] in HX; repeat (destruct HX as [<-|HX]; [vm_compute; reflexivity|]); destruct HX|] end.
  destruct HX as [<-|[]]. exact H.
Qed.
Lemma replace_CGJ : forall c, In CGJ (replace c) -> c = CGJ.
Proof.
  intros c HX. unfold replace in HX.
  repeat match type of HX with context [if ?b then _ else _] => destruct b;
    [cbn [In] in HX; repeat (destruct HX as [HX|HX]; [discriminate HX|]); destruct HX|] end.
  destruct HX as [<-|[]]. reflexivity.
Qed.
Local Opaque pipeline replace.

(** * Sessions without failures *)
Lemma tail_no_fail : forall e t, no_fail (e :: t) -> no_fail t.
Proof. intros e t H K. apply H. now right. Qed.
Lemma read_no_fail : forall i script b r cs j script', wf i -> no_fail script -> read i script b = (r, cs, j, script') ->
  r <> RErr /\ (r = RInvalid -> cs = []) /\ no_fail script'.
Proof.
  intros i script b r cs j script' W NF H. destruct (read_spec _ _ _ _ _ _ _ W H) as (W1 & _ & _ & C).
  destruct C as [(-> & _ & -> & -> & ->)|[(-> & -> & _)|[(_ & EI & _)|(raw & s & n & cs2 & EI & _ & _ & _ & _ & _ & _ & C)]]].
  - repeat split; auto; discriminate.
  - repeat split; auto; discriminate.
  - exfalso. destruct script as [|[c s|] t]; cbn in EI; [discriminate|destruct s; discriminate|]. apply NF. now left.
  - assert (NF' : no_fail script').
    { destruct script as [|[c s'|] t]; cbn in EI; [| |discriminate].
      - now injection EI as _ _ <-.
      - destruct s'; injection EI as _ _ <-; [eapply tail_no_fail; eauto|eapply tail_no_fail; eauto|intros []]. }
    destruct C as [(-> & _)|(-> & _)]; repeat split; auto; discriminate.
Qed.
Lemma received_delivered : forall sizes i script rs j script', wf i -> no_fail script -> reads i script sizes = (rs, j, script') -> received rs = delivered rs.
Proof.
  induction sizes as [|b sizes IH]; intros i script rs j script' W NF H; cbn [reads] in H.
  - now injection H as <- <- <-.
  - destruct (read i script b) as [[[r cs] i1] sc1] eqn:ER. destruct (reads i1 sc1 sizes) as [[rs' j'] sc2] eqn:ERS. injection H as <- <- <-.
    destruct (read_no_fail _ _ _ _ _ _ _ W NF ER) as (A & B & C). destruct (read_spec _ _ _ _ _ _ _ W ER) as (W1 & _).
    unfold received, delivered in *. cbn [flat_map fst snd]. rewrite (IH _ _ _ _ _ W1 C ERS). f_equal.
    destruct r; [reflexivity| |congruence]. now rewrite B.
Qed.

(** C01 *)
Theorem session_is_text : forall nel lsps script sizes rs j rest, reads (new_input nel lsps) script sizes = (rs, j, rest) ->
  no_fail script -> reached_end rs -> string_ok (received rs) /\ line_terminated (received rs).
Proof.
  intros nel lsps script sizes rs j rest H NF E. rewrite (received_delivered _ _ _ _ _ _ (wf_new nel lsps) NF H).
  destruct (session_end _ _ _ _ _ _ _ H E) as (-> & _). rewrite <- basic_text_spec. apply converted_ok.
Qed.
Theorem session_is_text_buffers : forall nel lsps script sizes rs j rest, reads (new_input nel lsps) script sizes = (rs, j, rest) ->
  reached_end rs -> string_ok (delivered rs) /\ line_terminated (delivered rs).
Proof.
  intros nel lsps script sizes rs j rest H E.
  destruct (session_end _ _ _ _ _ _ _ H E) as (-> & _). rewrite <- basic_text_spec. apply converted_ok.
Qed.
(** C02 *)
Theorem session_allowed : forall nel lsps script sizes rs j rest, reads (new_input nel lsps) script sizes = (rs, j, rest) ->
  substring_ok (delivered rs) /\ starts_ok (delivered rs) /\ Forall allowed (delivered rs).
Proof.
  intros nel lsps script sizes rs j rest H. destruct (delivered_substr _ _ _ _ _ _ _ H) as [A B]. apply substr_spec in A. split; [exact A|]. split; [exact B|apply A].
Qed.

(** C06 *)
Lemma took_prefix : forall sc evs sc', took sc evs sc' -> evs_of sc = evs ++ evs_of sc' \/ exists k, evs = evs_of sc ++ repeat ([], End) k.
Proof.
  induction 1 as [sc|sc raw s sc1 evs sc2 EI TK IH|sc sc1 evs sc2 EI TK IH].
  - now left.
  - destruct sc as [|[cs s'|] t]; cbn in EI; [|destruct s'|discriminate]; injection EI as <- <- <-; cbn [evs_of].
    + right. destruct (took_nil_script _ _ _ TK eq_refl) as [-> [k ->]]. now exists k.
    + destruct IH as [->|[k ->]]; [now left|right; now exists k].
    + destruct IH as [->|[k ->]]; [now left|right; now exists k].
    + right. destruct (took_nil_script _ _ _ TK eq_refl) as [-> [k ->]]. now exists k.
  - destruct sc as [|[cs s'|] t]; cbn in EI; [discriminate|destruct s'; discriminate|]. injection EI as <-. exact IH.
Qed.
Theorem delivered_prefix : forall nel lsps script sizes rs j rest, reads (new_input nel lsps) script sizes = (rs, j, rest) ->
  exists more, converted_stream nel lsps script = delivered rs ++ more.
Proof.
  intros nel lsps script sizes rs j rest H.
  destruct (reads_spec _ _ _ _ _ _ (wf_new nel lsps) H) as (W1 & N1 & L1 & evs & new & TK & FD & AV).
  destruct (abs_new nel lsps) as [A0 V0]. rewrite A0 in FD. rewrite V0 in AV. cbn [app nel_compat lsps_compat new_input] in FD, AV.
  unfold converted_stream. destruct (took_prefix _ _ _ TK) as [->|[k E]].
  - rewrite feed_app, FD. destruct (feed nel lsps (abs_of j) (evs_of rest)) as [n2 a2]. cbn [fst]. rewrite AV. exists (avail j ++ n2). now rewrite app_assoc.
  - rewrite E, feed_app in FD. destruct (feed nel lsps abs0 (evs_of script)) as [n1 a1] eqn:EF.
    destruct (feed_evs_final _ _ _ _ _ EF) as (F1 & F2 & _). pose proof (feed_finals nel lsps k a1 F1 F2) as FF.
    destruct (feed nel lsps a1 (repeat ([], End) k)) as [n2 a2]. cbn in FF. subst n2. injection FD as <- _. rewrite app_nil_r in AV. cbn [fst]. rewrite AV. eauto.
Qed.
Theorem sizes_do_not_matter : forall nel lsps script sizes1 rs1 j1 rest1 sizes2 rs2 j2 rest2,
  reads (new_input nel lsps) script sizes1 = (rs1, j1, rest1) -> reads (new_input nel lsps) script sizes2 = (rs2, j2, rest2) ->
  reached_end rs1 -> (exists more, delivered rs1 = delivered rs2 ++ more) /\ (reached_end rs2 -> delivered rs1 = delivered rs2).
Proof.
  intros nel lsps script sizes1 rs1 j1 rest1 sizes2 rs2 j2 rest2 H1 H2 E1.
  destruct (session_end _ _ _ _ _ _ _ H1 E1) as (-> & _). split.
  - destruct (delivered_prefix _ _ _ _ _ _ _ H2) as [more ->]. eauto.
  - intro E2. now destruct (session_end _ _ _ _ _ _ _ H2 E2) as (-> & _).
Qed.
Theorem sizes_do_not_matter_received : forall nel lsps script sizes1 rs1 j1 rest1 sizes2 rs2 j2 rest2,
  reads (new_input nel lsps) script sizes1 = (rs1, j1, rest1) -> reads (new_input nel lsps) script sizes2 = (rs2, j2, rest2) ->
  no_fail script -> reached_end rs1 ->
  (exists more, received rs1 = received rs2 ++ more) /\ (reached_end rs2 -> received rs1 = received rs2).
Proof.
  intros nel lsps script sizes1 rs1 j1 rest1 sizes2 rs2 j2 rest2 H1 H2 NF E1.
  rewrite (received_delivered _ _ _ _ _ _ (wf_new nel lsps) NF H1), (received_delivered _ _ _ _ _ _ (wf_new nel lsps) NF H2).
  eapply sizes_do_not_matter; eauto.
Qed.

(** C08: failures do not change the conversion *)
Definition without_failures (script : list event) : list event := filter (fun e => match e with Fail => false | _ => true end) script.
Lemma evs_failures : forall script, evs_of (without_failures script) = evs_of script.
Proof. induction script as [|[cs s|] t IH]; [reflexivity| |exact IH]. destruct s; cbn; fold (without_failures t); rewrite ?IH; reflexivity. Qed.
Theorem failures_harmless : forall nel lsps script sizes1 rs1 j1 rest1 sizes2 rs2 j2 rest2,
  reads (new_input nel lsps) script sizes1 = (rs1, j1, rest1) -> reached_end rs1 ->
  reads (new_input nel lsps) (without_failures script) sizes2 = (rs2, j2, rest2) -> reached_end rs2 ->
  delivered rs1 = delivered rs2.
Proof.
  intros nel lsps script sizes1 rs1 j1 rest1 sizes2 rs2 j2 rest2 H1 E1 H2 E2.
  destruct (session_end _ _ _ _ _ _ _ H1 E1) as (-> & _). destruct (session_end _ _ _ _ _ _ _ H2 E2) as (-> & _).
  unfold converted_stream. now rewrite evs_failures.
Qed.
Lemma failed_untouched : forall buf, buffer_after RErr [] buf = buf.
Proof. intro buf. reflexivity. Qed.

(** C09 *)
Theorem session_terminates : forall nel lsps script, exists n, forall sizes, legal_sizes sizes -> (n <= length sizes)%nat ->
  exists k rs j rest, reads (new_input nel lsps) script (firstn k sizes) = (rs, j, rest) /\ reached_end rs.
Proof.
  intros nel lsps script. destruct (reads_terminate nel lsps script) as [n H]. exists n. intros sizes HL HN. apply H; auto.
Qed.

(** * The conversion as a function of the text *)
Lemma replaced_forall : forall can rep (P : N -> Prop) s rs, P LF -> P SP -> (forall c, In c s -> Forall P (rep c)) ->
  replaced can rep s rs -> Forall P (concat rs).
Proof.
  intros can rep P s rs H1 H2 H3 H. induction H as [|m r rest rs HR HL HT IH]; [constructor|]. cbn. apply Forall_app. split.
  - assert (HM : forall c, In c m -> Forall P (rep c)) by (intros c Hc; apply H3, in_or_app; now left).
    destruct HR; repeat constructor; auto. apply HM. now left.
  - apply IH. intros c Hc. apply H3, in_or_app. now right.
Qed.

Lemma unguarded_guarded : forall t (b : bool), unguarded_text t -> unguarded_text (guard_end (guard_start t) ++ (if b then [LF] else [])).
Proof.
  intros t b U.
  assert (U1 : unguarded_text (guard_start t)).
  { unfold guard_start. destruct t as [|c t]; [exact U|]. destruct (is_basic_text_start c) eqn:EC; [exact U|].
    intros a x z EQ. destruct a as [|y a]; injection EQ as EQ1 EQ2; [|exact (U _ _ _ EQ2)]. subst x. now apply nonstart_assigned. }
  assert (SN : forall w x, is_assigned x = true -> unguarded_text w -> unguarded_text (w ++ [x])).
  { intros w x HX UT a c z E. destruct z as [|y z _] using rev_ind.
    - change (a ++ 0x34F :: [c]) with (a ++ [0x34F] ++ [c]) in E. rewrite app_assoc in E. apply app_inj_tail in E. destruct E as [_ <-]. exact HX.
    - replace (a ++ 0x34F :: c :: z ++ [y]) with ((a ++ 0x34F :: c :: z) ++ [y]) in E by now rewrite <- app_assoc.
      apply app_inj_tail in E. destruct E as [-> _]. exact (UT _ _ _ eq_refl). }
  assert (U2 : unguarded_text (guard_end (guard_start t))).
  { unfold guard_end. destruct (last_opt _) as [y|]; [destruct (is_basic_text_end y)|]; auto. }
  destruct b; [|now rewrite app_nil_r]. apply SN; [exact assigned_LF|exact U2].
Qed.
Lemma unguarded_translate : forall nel lsps s rs, replaced true (char_rep nel lsps) s rs -> unguarded_text (concat rs) -> unguarded_text (translate nel lsps s).
Proof. intros nel lsps s rs HR U. rewrite (translate_replaced _ _ _ _ HR). now apply unguarded_guarded. Qed.

Definition stream_conversion (rs : list (list N)) : list N :=
  pipeline (guard_end (guard_start (concat rs)) ++ (if needs_newline rs then [LF] else [])).

Theorem converted_spec : forall nel lsps script rs, no_push script -> bom_visible script ->
  replaced true (char_rep nel lsps) (without_bom (stream_text script)) rs -> unguarded_text (concat rs) ->
  converted_stream nel lsps script = stream_conversion rs.
Proof.
  intros nel lsps script rs NP BV HR U. pose proof (unguarded_translate _ _ _ _ HR U) as UT.
  rewrite (converted_plain _ _ _ NP BV UT). unfold stream_conversion. now rewrite (translate_replaced _ _ _ _ HR).
Qed.
Theorem session_conversion : forall nel lsps script sizes out j rest rs, reads (new_input nel lsps) script sizes = (out, j, rest) -> reached_end out ->
  no_push script -> bom_visible script ->
  replaced true (char_rep nel lsps) (without_bom (stream_text script)) rs -> unguarded_text (concat rs) ->
  delivered out = stream_conversion rs.
Proof.
  intros nel lsps script sizes out j rest rs H E NP BV HR U. destruct (session_end _ _ _ _ _ _ _ H E) as (-> & _). now apply converted_spec.
Qed.

(** simple conditions on the text of the stream *)
Lemma rep_assigned : forall nel lsps c, is_assigned c = true -> Forall (fun x => is_assigned x = true) (char_rep nel lsps c).
Proof.
  intros nel lsps c H. unfold char_rep. destruct (_ || _); [repeat constructor; vm_compute; reflexivity|].
  apply Forall_forall. intros x HX. eapply replace_assigned; eauto.
Qed.
Lemma unguarded_assigned : forall nel lsps s rs, replaced true (char_rep nel lsps) s rs -> Forall (fun c => is_assigned c = true) s -> unguarded_text (concat rs).
Proof.
  intros nel lsps s rs HR HA a c b E.
  assert (F : Forall (fun c => is_assigned c = true) (concat rs)).
  { eapply (replaced_forall true (char_rep nel lsps)); [exact assigned_LF|vm_compute; reflexivity| |exact HR]. intros x HX. apply rep_assigned. rewrite Forall_forall in HA. auto. }
  rewrite E in F. apply Forall_app in F. destruct F as [_ F]. inversion F as [|? ? _ F1]; subst. now inversion F1.
Qed.
Lemma unguarded_no_cgj : forall nel lsps s rs, replaced true (char_rep nel lsps) s rs -> ~ In 0x34F s -> unguarded_text (concat rs).
Proof.
  intros nel lsps s rs HR HN a c b E. exfalso.
  assert (F : Forall (fun c => c <> CGJ) (concat rs)).
  { eapply (replaced_forall true (char_rep nel lsps)); [discriminate|discriminate| |exact HR]. intros x HX. unfold char_rep. destruct (_ || _); [repeat constructor; discriminate|].
    apply Forall_forall. intros y HY ->. apply replace_CGJ in HY. subst x. exact (HN HX). }
  rewrite E in F. apply Forall_app in F. destruct F as [_ F]. inversion F as [|? ? F1 _]. now apply F1.
Qed.
(** C05 *)
Definition simple_text (s : list N) : Prop := Forall (fun c => is_assigned c = true) s \/ ~ In 0x34F s.
Lemma simple_unguarded : forall nel lsps s rs, replaced true (char_rep nel lsps) s rs -> simple_text s -> unguarded_text (concat rs).
Proof. intros nel lsps s rs HR [H|H]; [eapply unguarded_assigned|eapply unguarded_no_cgj]; eauto. Qed.
Lemma without_in : forall c s, In c (without_bom s) -> In c s.
Proof. intros c [|x s]; [auto|]. cbn. destruct (x =? 0xFEFF); cbn; auto. Qed.
Lemma simple_without : forall s, simple_text s -> simple_text (without_bom s).
Proof.
  intros s [H|H]; [left|right].
  - apply Forall_forall. intros c Hc. apply without_in in Hc. rewrite Forall_forall in H. auto.
  - intro K. apply without_in in K. auto.
Qed.
Theorem chunks_do_not_matter : forall nel lsps script1 sizes1 rs1 j1 rest1 script2 sizes2 rs2 j2 rest2 seqs,
  reads (new_input nel lsps) script1 sizes1 = (rs1, j1, rest1) -> reads (new_input nel lsps) script2 sizes2 = (rs2, j2, rest2) ->
  stream_text script1 = stream_text script2 -> no_push script1 -> no_push script2 -> bom_visible script1 -> bom_visible script2 ->
  replaced true (char_rep nel lsps) (without_bom (stream_text script1)) seqs -> unguarded_text (concat seqs) ->
  reached_end rs1 -> reached_end rs2 -> delivered rs1 = delivered rs2.
Proof.
  intros nel lsps script1 sizes1 rs1 j1 rest1 script2 sizes2 rs2 j2 rest2 seqs H1 H2 ET NP1 NP2 B1 B2 HR U E1 E2.
  rewrite (session_conversion _ _ _ _ _ _ _ _ H1 E1 NP1 B1 HR U). rewrite ET in HR.
  now rewrite (session_conversion _ _ _ _ _ _ _ _ H2 E2 NP2 B2 HR U).
Qed.
Theorem chunks_do_not_matter_simple : forall nel lsps script1 sizes1 rs1 j1 rest1 script2 sizes2 rs2 j2 rest2,
  reads (new_input nel lsps) script1 sizes1 = (rs1, j1, rest1) -> reads (new_input nel lsps) script2 sizes2 = (rs2, j2, rest2) ->
  stream_text script1 = stream_text script2 -> no_push script1 -> no_push script2 -> bom_visible script1 -> bom_visible script2 ->
  simple_text (stream_text script1) ->
  reached_end rs1 -> reached_end rs2 -> delivered rs1 = delivered rs2.
Proof.
  intros nel lsps script1 sizes1 rs1 j1 rest1 script2 sizes2 rs2 j2 rest2 H1 H2 ET NP1 NP2 B1 B2 SM E1 E2.
  destruct (replaced_total nel lsps (without_bom (stream_text script1))) as [seqs HR].
  eapply (chunks_do_not_matter _ _ _ _ _ _ _ _ _ _ _ _ seqs H1 H2); eauto. eapply simple_unguarded; eauto. now apply simple_without.
Qed.

(** C04: the documented grammar, for text without U+18 *)
Lemma row_can : forall rep m r, ~ In 0x18 m -> row false rep m r <-> row true rep m r.
Proof.
  intros rep m r H. split; intro HR; destruct HR; try (now constructor).
  - apply row_csi_final; auto. destruct H2 as [K|[K _]]; [now left|discriminate].
  - apply row_esc_final; auto. destruct H1 as [K|[K _]]; [now left|discriminate].
  - apply row_csi_final; auto. destruct H2 as [K|[_ ->]]; [now left|]. exfalso. apply H. apply in_or_app. right. right. apply in_or_app. right. now left.
  - apply row_esc_final; auto. destruct H1 as [K|[_ ->]]; [now left|]. exfalso. apply H. apply in_or_app. right. now left.
Qed.
Lemma replaced_can : forall rep s rs, ~ In 0x18 s -> replaced false rep s rs -> replaced true rep s rs.
Proof.
  intros rep s rs H HR. induction HR as [|m r rest rs HR HL HT IH]; [constructor|].
  assert (HM : ~ In 0x18 m) by (intro K; apply H, in_or_app; now left).
  constructor.
  - now apply row_can.
  - intros m' r' rest' HR' E. apply (HL m' r' rest'); [|exact E]. apply row_can; [|exact HR']. intro K. apply H. rewrite E. apply in_or_app. now left.
  - apply IH. intro K. apply H, in_or_app. now right.
Qed.
