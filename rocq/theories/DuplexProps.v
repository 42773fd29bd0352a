(** A duplexer is a reader and a writer side by side. *)
From Coq Require Import NArith Arith List Bool Lia ZifyBool ZifyNat ZifyN.
From Verif Require Import Base Ucd UcdTables Norm Chars TextTables TextUtils UcdFacts NormFacts CharFacts DocTable SpecText TextFacts PipelineFacts DocFacts IsoFacts
  Utf8 Utf8Facts Input Output ReadFacts ReadInv ReadSession SpecRead ReadChunk SpecEscape EscapeFacts EscapeRun ReadProps KeepFacts ReadPieces SpecConv ConvFacts
  SpecWrite WriteFacts WriteProps Copy CopyProps Duplex SpecDuplex.
Import ListNotations.
Local Open Scope N_scope.
Arguments N.add : simpl never.
Arguments N.leb : simpl never.
Arguments N.ltb : simpl never.
Arguments N.eqb : simpl never.
Local Opaque pipeline.

(** * The reading side *)
Lemma do_dop_out : forall d o, o <> OpAbandon -> do_dop d (DOut o) = (let '(r, w) := do_op (dout d) o in (DWrote r, mkduplexer (din d) w (dscript d))).
Proof. intros d o H. destruct o; try reflexivity. contradiction. Qed.
Theorem duplex_reads : forall os d rs d', do_dops d os = (rs, d') -> Forall (fun o => o <> DOut OpAbandon) os ->
  reads (din d) (dscript d) (read_sizes os) = (read_results rs, din d', dscript d').
Proof.
  induction os as [|o os IH]; intros d rs d' H F; cbn [do_dops] in H; [injection H as <- <-; reflexivity|]. inversion F as [|? ? F1 F2]; subst.
  destruct (do_dop d o) as [r d1] eqn:E1. destruct (do_dops d1 os) as [rs1 d2] eqn:E2. injection H as <- <-. specialize (IH _ _ _ E2 F2). destruct o as [b|o].
  - cbn [do_dop] in E1. unfold duplex_read in E1. destruct (read (din d) (dscript d) b) as [[[x cs] i] sc] eqn:ER. injection E1 as <- <-. cbn [din dscript] in IH.
    cbn [read_sizes read_results flat_map app reads]. rewrite ER. unfold read_sizes, read_results in IH. now rewrite IH.
  - rewrite do_dop_out in E1 by congruence. destruct (do_op (dout d) o) as [e w]. injection E1 as <- <-. cbn [din dscript] in IH. exact IH.
Qed.

(** * The writing side *)
Lemma newline_refines : forall cr d w, refines cr d w -> refines cr (mkdoc [] (sent d) (fresh d) (failed d) (outcomes d)) (newline w true).
Proof.
  intros cr d w (H1 & H2 & HQ & H3 & H4 & H5 & H6). unfold refines, newline. cbn. destruct (failed d); [auto 10|]. destruct H6 as (B & X & _). auto 12.
Qed.
Lemma read_line_flag : forall n s cs, n = str_len cs -> negb (Nat.eqb n 0) && (match last_opt cs with Some c => c =? LF | None => false end) = line_read (DGot (ROk n s) cs).
Proof.
  intros n s cs ->. cbn [line_read]. destruct cs as [|c cs _] using rev_ind; [reflexivity|]. rewrite last_opt_snoc, str_len_app. cbn. pose proof (utf8_len_pos c).
  destruct (Nat.eqb _ 0) eqn:E; [|reflexivity]. apply Nat.eqb_eq in E. lia.
Qed.
Lemma dop_refines : forall cr d x o r x', wf (din x) -> refines cr d (dout x) -> plain_dop o -> do_dop x o = (r, x') ->
  spec_result cr d o r /\ refines cr (spec_side cr d o r) (dout x') /\ wf (din x').
Proof.
  intros cr d x o r x' W R P H. destruct o as [b|o].
  - cbn [do_dop] in H. unfold duplex_read in H. destruct (read (din x) (dscript x) b) as [[[y cs] i] sc] eqn:ER. injection H as <- <-. split; [exact I|]. cbn [dout din spec_side].
    split; [|exact (read_wf _ _ _ _ _ _ _ W ER)]. destruct y as [n s| |]; try exact R. rewrite (read_line_flag n s cs) by exact (read_count _ _ _ _ _ _ _ _ W ER).
    destruct (line_read (DGot (ROk n s) cs)); [now apply newline_refines|exact R].
  - destruct P as [P NA]. rewrite do_dop_out in H by exact NA. destruct (op_refines cr d (dout x) o R P) as [E R']. destruct (do_op (dout x) o) as [e w]. injection H as <- <-.
    cbn [spec_result spec_side dout din]. auto.
Qed.
Lemma dops_refine : forall os cr d x rs x', wf (din x) -> refines cr d (dout x) -> Forall plain_dop os -> do_dops x os = (rs, x') ->
  spec_results cr d os rs /\ refines cr (spec_sides cr d os rs) (dout x').
Proof.
  induction os as [|o os IH]; intros cr d x rs x' W R F H; cbn [do_dops] in H; [injection H as <- <-; split; [exact I|exact R]|]. inversion F as [|? ? F1 F2]; subst.
  destruct (do_dop x o) as [r x1] eqn:E1. destruct (do_dops x1 os) as [rs1 x2] eqn:E2. injection H as <- <-.
  destruct (dop_refines _ _ _ _ _ _ W R F1 E1) as (S1 & R1 & W1). destruct (IH _ _ _ _ _ W1 R1 F2 E2) as [S2 R2]. split; [split; assumption|exact R2].
Qed.
Theorem duplex_refines : forall nel lsps cr p o sc os rs x, do_dops (new_duplexer nel lsps cr false (mksink p o false) sc) os = (rs, x) -> Forall plain_dop os ->
  spec_results cr (new_doc p o) os rs /\ refines cr (spec_sides cr (new_doc p o) os rs) (dout x).
Proof. intros nel lsps cr p o sc os rs x H F. exact (dops_refine os cr _ _ rs x (wf_new nel lsps : wf (din (new_duplexer nel lsps cr false (mksink p o false) sc))) (new_refines cr p o) F H). Qed.

(** * What has been written *)
Lemma op_sent_added : forall cr d o b d', spec_op cr d o = (b, d') -> failed d' = false -> sent d' = sent d ++ as_sent cr (op_text o).
Proof.
  assert (NA : forall cr, as_sent cr [] = []) by (intros [|]; reflexivity).
  assert (SD : forall cr d t b d', spec_send cr d t = (b, d') -> failed d' = false -> sent d' = sent d ++ as_sent cr t).
  { intros cr d t b d' H F. unfold spec_send in H. destruct (_ && _); [injection H as <- <-; discriminate|].
    destruct (outcomes d) as [|[|n] o]; injection H as <- <-; try discriminate; auto. }
  assert (SC : forall d b d', spec_call d = (b, d') -> sent d' = sent d).
  { intros d b d' H. unfold spec_call in H. destruct (outcomes d) as [|[|n] o]; injection H as <- <-; auto. }
  assert (SW : forall cr d s b d', spec_write cr d s = (b, d') -> failed d' = false -> sent d' = sent d ++ as_sent cr (pipeline s)).
  { intros cr d s b d' H F. unfold spec_write in H. destruct (failed d) eqn:EF; [injection H as <- <-; congruence|].
    destruct (forallb allowedb s); cbn [negb] in H; [|injection H as <- <-; discriminate]. exact (SD _ _ _ _ _ H F). }
  intros cr d o b d' H F. destruct o as [s|s|bs| | |]; cbn [spec_op op_text] in *; rewrite ?NA, ?app_nil_r.
  - exact (SW _ _ _ _ _ H F).
  - unfold spec_write_text in H. destruct (failed d) eqn:EF; [injection H as <- <-; congruence|]. exact (SD _ _ _ _ _ H F).
  - destruct (decode bs) as [[|c cs] [|y rest]]; cbn [fst]; try exact (SW _ _ _ _ _ H F). injection H as <- <-. discriminate.
  - unfold spec_flush in H. destruct (failed d) eqn:EF; [injection H as <- <-; congruence|].
    destruct (opt_all _ _); [exact (SC _ _ _ H)|injection H as <- <-; discriminate].
  - unfold spec_close in H. destruct (failed d) eqn:EF; [injection H as <- <-; congruence|].
    destruct (last_opt (text d)) as [c|]; [destruct (c =? 10)|]; try exact (SC _ _ _ H); injection H as <- <-; discriminate.
  - injection H as <- <-. discriminate.
Qed.
Lemma sides_written : forall os rs cr d, spec_results cr d os rs -> failed (spec_sides cr d os rs) = false ->
  failed d = false /\ text (spec_sides cr d os rs) = written_since (text d) os rs /\ sent (spec_sides cr d os rs) = sent d ++ as_sent cr (written os).
Proof.
  assert (NA : forall cr, as_sent cr [] = []) by (intros [|]; reflexivity).
  induction os as [|o os IH]; intros [|r rs] cr d H F; try destruct H.
  - cbn in *. rewrite NA, app_nil_r. auto.
  - cbn [spec_sides] in *. destruct (IH _ _ _ H0 F) as (F1 & T & S). rewrite T, S. cbn [written_since]. unfold written. cbn [map concat]. rewrite as_sent_app, app_assoc.
    destruct o as [b|o]; cbn [spec_side dop_text] in *.
    + rewrite NA, !app_nil_r. destruct (line_read r); cbn in *; auto.
    + destruct (spec_op cr d o) as [e d'] eqn:E. cbn [snd] in *. destruct (op_text_added _ _ _ _ _ E F1) as (F0 & T0 & _). rewrite (op_sent_added _ _ _ _ _ E F1), T0.
      split; [exact F0|]. split; [|reflexivity]. destruct r as [x cs|x|]; try destruct H. reflexivity.
Qed.
Lemma spec_results_ok : forall os rs cr d, spec_results cr d os rs -> failed (spec_sides cr d os rs) = false ->
  Forall2 (fun o r => match o, r with DOut o, DWrote e => is_write o = true -> e = None | _, _ => True end) os rs.
Proof.
  induction os as [|o os IH]; intros [|r rs] cr d H F; try destruct H; [constructor|]. constructor; [|exact (IH _ _ _ H0 F)].
  cbn [spec_sides] in F. destruct (sides_written _ _ _ _ H0 F) as (F1 & _ & _). destruct o as [b|o]; destruct r as [x cs|e|]; auto. intro K. cbn in H, F1.
  destruct (spec_op cr d o) as [b d'] eqn:E. cbn [fst snd] in *. destruct (op_text_added _ _ _ _ _ E F1) as (_ & _ & W). rewrite (W K) in H. destruct e; [discriminate|reflexivity].
Qed.

(** * Closing *)
Lemma close_spec : forall cr d w w', refines cr d w -> close w = (None, w') -> failed d = false /\ line_terminated (text d) /\ emitted (inner w') = sent d.
Proof.
  intros cr d w w' R HC. destruct (op_refines cr d w OpClose R I) as [RC R']. cbn [do_op spec_op] in RC, R'. rewrite HC in RC, R'. cbn [fst snd ok] in RC, R'.
  unfold spec_close in RC, R'. destruct (failed d) eqn:EF; [discriminate|]. split; [reflexivity|].
  assert (SE : sent (snd (spec_call d)) = sent d) by (unfold spec_call; destruct (outcomes d) as [|[|n] oo]; reflexivity). split.
  - destruct (last_opt (text d)) as [c|] eqn:EL; [|left; now apply last_opt_none]. destruct (c =? 10) eqn:E10; [|discriminate].
    right. apply last_opt_some in EL. apply N.eqb_eq in E10. subst c. exact EL.
  - destruct (last_opt (text d)) as [c|]; [destruct (c =? 10); [|discriminate]|]; destruct R' as (_ & _ & _ & -> & _); exact SE.
Qed.
Theorem duplex_close : forall nel lsps cr p o sc os rs x w', do_dops (new_duplexer nel lsps cr false (mksink p o false) sc) os = (rs, x) -> Forall plain_dop os ->
  close (dout x) = (None, w') ->
  line_terminated (written_since [] os rs) /\ emitted (inner w') = p ++ as_sent cr (written os) /\
  Forall2 (fun o r => match o, r with DOut o, DWrote e => is_write o = true -> e = None | _, _ => True end) os rs.
Proof.
  intros nel lsps cr p o sc os rs x w' H F HC. destruct (duplex_refines _ _ _ _ _ _ _ _ _ H F) as [S R]. destruct (close_spec _ _ _ _ R HC) as (EF & LT & EM).
  destruct (sides_written _ _ _ _ S EF) as (_ & T & SE). rewrite T in LT. rewrite SE in EM. split; [exact LT|]. split; [exact EM|]. exact (spec_results_ok _ _ _ _ S EF).
Qed.
(** After reading a line closing succeeds, unless a write has failed. *)
Lemma sides_alive : forall os rs cr d, spec_results cr d os rs -> failed d = false -> outcomes d = [] ->
  Forall (fun r => match r with DWrote (Some _) => False | _ => True end) rs -> Forall (fun o => o <> DOut OpAbandon) os ->
  failed (spec_sides cr d os rs) = false /\ outcomes (spec_sides cr d os rs) = [].
Proof.
  induction os as [|o os IH]; intros [|r rs] cr d H F O A NA; try destruct H; [auto|]. inversion A as [|? ? A1 A2]; subst. inversion NA as [|? ? N1 N2]; subst. cbn [spec_sides].
  assert (K : failed (spec_side cr d o r) = false /\ outcomes (spec_side cr d o r) = []).
  { destruct o as [b|o]; cbn [spec_side]; [destruct (line_read r); auto|]. destruct r as [y cs|e|]; [destruct H| |destruct H]. destruct e; [destruct A1|]. cbn in H.
    destruct o as [s|s|bs| | |]; cbn [spec_op] in *; unfold spec_write, spec_write_text, spec_flush, spec_close, spec_send, spec_call in *; rewrite ?O, ?F in *; cbn [negb] in *.
    - destruct (forallb allowedb s); cbn [negb fst snd] in *; [|discriminate]. destruct (_ && _); [discriminate|]. auto.
    - destruct (_ && _); [discriminate|]. auto.
    - destruct (decode bs) as [[|c cs] [|y rest]]; cbn [fst snd] in *; try discriminate;
        match goal with |- context [negb ?x] => destruct (negb x); [discriminate|] | _ => idtac end; try (destruct (_ && _); [discriminate|]; auto).
      all: auto.
    - destruct (opt_all _ _); [auto|discriminate].
    - destruct (last_opt (text d)) as [c|]; [destruct (c =? 10); [auto|discriminate]|auto].
    - now contradiction N1. }
  destruct K as [K1 K2]. exact (IH _ _ _ H0 K1 K2 A2 N2).
Qed.
Theorem duplex_close_after_line : forall nel lsps cr p sc os b rs r x, do_dops (new_duplexer nel lsps cr false (mksink p [] false) sc) (os ++ [DRead b]) = (rs ++ [r], x) ->
  Forall plain_dop os -> Forall (fun r => match r with DWrote (Some _) => False | _ => True end) rs -> line_read r = true ->
  exists w', close (dout x) = (None, w') /\ emitted (inner w') = p ++ as_sent cr (written os).
Proof.
  intros nel lsps cr p sc os b rs r x H F A L. assert (F' : Forall plain_dop (os ++ [DRead b])) by (apply Forall_app; split; [exact F|]; constructor; [exact I|constructor]).
  destruct (duplex_refines _ _ _ _ _ _ _ _ _ H F') as [S R].
  assert (SP : forall os rs cr d o r, spec_results cr d (os ++ [o]) (rs ++ [r]) -> spec_results cr d os rs /\ spec_sides cr d (os ++ [o]) (rs ++ [r]) = spec_side cr (spec_sides cr d os rs) o r).
  { clear. induction os as [|o' os IH]; intros [|r' rs] cr d o r H; cbn [app spec_results spec_sides] in *.
    - auto.
    - destruct H as [_ H]. destruct rs; destruct H.
    - destruct H as [_ H]. destruct os; destruct H.
    - destruct H as [H1 H2]. destruct (IH _ _ _ _ _ H2) as [H3 H4]. auto. }
  destruct (SP _ _ _ _ _ _ S) as [S1 S2]. rewrite S2 in R. assert (NA : Forall (fun o => o <> DOut OpAbandon) os).
  { eapply Forall_impl; [|exact F]. intros o P ->. destruct P. congruence. }
  destruct (sides_alive _ _ _ _ S1 eq_refl eq_refl A NA) as [F1 O1]. cbn [spec_side] in R. rewrite L in R. destruct (sides_written _ _ _ _ S1 F1) as (_ & _ & SE).
  destruct (op_refines cr _ (dout x) OpClose R I) as [RC R']. cbn [do_op spec_op] in RC, R'. unfold spec_close, spec_call in RC, R'. cbn [failed text last_opt outcomes sent] in RC, R'. rewrite F1, O1 in RC, R'.
  cbn [fst snd] in RC, R'. destruct (close (dout x)) as [e w']. cbn [fst snd ok] in RC, R'. destruct e; [discriminate|]. exists w'. split; [reflexivity|]. destruct R' as (_ & _ & _ & -> & _). exact SE.
Qed.

(** * Whole lines *)
Definition outs (os : list dop) : list wop := flat_map (fun o => match o with DOut o => [o] | DRead _ => [] end) os.
(** The same but for the text, and both texts end with a line end. *)
Definition aligned (d d' : doc) : Prop :=
  sent d = sent d' /\ fresh d = fresh d' /\ failed d = failed d' /\ outcomes d = outcomes d' /\ line_terminated (text d) /\ line_terminated (text d').
Lemma lt_end : forall t, line_terminated t -> opt_all is_basic_text_end (last_opt t) = true /\ (last_opt t = None \/ last_opt t = Some LF).
Proof. intros t [->|[u ->]]; [auto|]. rewrite last_opt_snoc. split; [exact end_LF|now right]. Qed.
Lemma lt_app : forall t u, line_terminated (t ++ u ++ [0xA]). Proof. intros t u. right. exists (t ++ u). now rewrite app_assoc. Qed.
Lemma op_aligned : forall cr d d' o, aligned d d' -> line_op o -> aligned (snd (spec_op cr d o)) (snd (spec_op cr d' o)).
Proof.
  intros cr [t s f x q] [t' s' f' x' q'] o (A1 & A2 & A3 & A4 & A5 & A6) L. cbn in *. subst s' f' x' q'.
  assert (SD : forall u, (exists v, u = v ++ [0xA]) -> aligned (snd (spec_send cr (mkdoc t s f x q) u)) (snd (spec_send cr (mkdoc t' s f x q) u))).
  { intros u [v ->]. unfold spec_send. cbn [fresh outcomes]. destruct (f && _); [unfold aligned, fail; cbn; auto 10|]. destruct q as [|[|n] q]; unfold aligned; cbn; auto 10 using lt_app. }
  assert (SC : aligned (snd (spec_call (mkdoc t s f x q))) (snd (spec_call (mkdoc t' s f x q)))).
  { unfold spec_call. cbn [outcomes]. destruct q as [|[|n] q]; unfold aligned; cbn; auto 10. }
  assert (SW : forall u, (exists v, pipeline u = v ++ [0xA]) -> aligned (snd (spec_write cr (mkdoc t s f x q) u)) (snd (spec_write cr (mkdoc t' s f x q) u))).
  { intros u H. unfold spec_write. cbn [failed]. destruct x; [unfold aligned; cbn; auto 10|]. destruct (negb (forallb allowedb u)); [unfold aligned, fail; cbn; auto 10|]. now apply SD. }
  destruct o as [u|u|bs| | |]; unfold line_op in L; cbn [spec_op op_text is_write] in *.
  - apply SW. auto.
  - unfold spec_write_text. cbn [failed]. destruct x; [unfold aligned; cbn; auto 10|]. apply SD. auto.
  - specialize (L eq_refl). destruct (decode bs) as [[|c cs] [|y r]]; cbn [fst snd] in *; [apply SW; exact L|unfold aligned, fail; cbn; auto 10|apply SW; exact L|apply SW; exact L].
  - unfold spec_flush. cbn [failed text]. destruct x; [unfold aligned; cbn; auto 10|]. destruct (lt_end _ A5) as [-> _]. destruct (lt_end _ A6) as [-> _]. exact SC.
  - unfold spec_close. cbn [failed text]. destruct x; [unfold aligned; cbn; auto 10|]. destruct (lt_end _ A5) as [_ [-> | ->]]; destruct (lt_end _ A6) as [_ [-> | ->]]; exact SC.
  - unfold aligned, fail. cbn. auto 10.
Qed.
Lemma sides_aligned : forall os rs cr d d', aligned d d' -> spec_results cr d os rs -> Forall line_op (outs os) -> aligned (spec_sides cr d os rs) (snd (spec_ops cr d' (outs os))).
Proof.
  induction os as [|o os IH]; intros [|r rs] cr d d' A S F; try destruct S; [exact A|]. destruct o as [b|o].
  - cbn [spec_sides outs flat_map app]. apply IH; auto. cbn [spec_side]. destruct A as (A1 & A2 & A3 & A4 & A5 & A6). destruct (line_read r); unfold aligned; cbn; auto 10. repeat split; auto. now left.
  - cbn [outs flat_map app] in *. inversion F as [|? ? F1 F2]; subst. cbn [spec_sides spec_ops]. pose proof (op_aligned cr d d' o A F1) as A'. cbn [spec_side] in *.
    specialize (IH rs cr _ _ A' H0 F2). destruct (spec_op cr d' o) as [e d1]. cbn [snd] in *. fold (outs os). destruct (spec_ops cr d1 (outs os)) as [bs d2]. exact IH.
Qed.
Lemma outs_text : forall os, concat (map op_text (outs os)) = written os.
Proof. induction os as [|[b|o] os IH]; [reflexivity|exact IH|]. unfold written in *. cbn. now rewrite <- IH. Qed.
Theorem duplex_closed_lines : forall nel lsps cr p o sc os rs x w', do_dops (new_duplexer nel lsps cr false (mksink p o false) sc) os = (rs, x) -> Forall plain_dop os ->
  Forall line_op (outs os) -> close (dout x) = (None, w') ->
  string_ok (written os) /\ line_terminated (written os) /\ emitted (inner w') = p ++ as_sent cr (written os).
Proof.
  intros nel lsps cr p o sc os rs x w' H F L HC. destruct (duplex_refines _ _ _ _ _ _ _ _ _ H F) as [S R]. destruct (duplex_close _ _ _ _ _ _ _ _ _ _ H F HC) as (_ & EM & _).
  assert (A0 : aligned (new_doc p o) (new_doc p o)) by (unfold aligned; cbn; repeat split; now left).
  pose proof (sides_aligned _ _ _ _ _ A0 S L) as A. set (d := spec_sides cr (new_doc p o) os rs) in *.
  assert (P : Forall plain_op (outs os)).
  { clear - F. induction F as [|o os HP F IH]; [constructor|]. destruct o as [b|o]; [exact IH|]. cbn. constructor; [apply HP|exact IH]. }
  destruct (ops_refine (outs os) cr _ _ (new_refines cr p o) P) as [_ R2]. destruct (do_ops (new_writer cr false (mksink p o false)) (outs os)) as [rs2 w2] eqn:ED. cbn [snd] in R2.
  set (d2 := snd (spec_ops cr (new_doc p o) (outs os))) in *.
  assert (HC2 : exists w2', close w2 = (None, w2')).
  { destruct (op_refines cr d (dout x) OpClose R I) as [E1 _]. destruct (op_refines cr d2 w2 OpClose R2 I) as [E2 _]. cbn [do_op spec_op] in E1, E2. rewrite HC in E1. cbn [fst ok] in E1.
    assert (E : fst (spec_close d2) = fst (spec_close d)).
    { destruct A as (A1 & A2 & A3 & A4 & A5 & A6). unfold spec_close. rewrite <- A3. destruct (failed d); [reflexivity|].
      destruct (lt_end _ A5) as [_ [-> | ->]]; destruct (lt_end _ A6) as [_ [-> | ->]]; cbn; unfold spec_call; rewrite A4; destruct (outcomes d2) as [|[|n] q]; reflexivity. }
    rewrite E, <- E1 in E2. destruct (close w2) as [[e|] w2']; [discriminate|eauto]. }
  destruct HC2 as [w2' HC2]. pose proof (closed_lines_basic_text _ _ _ _ _ _ _ ED P L HC2) as K. rewrite outs_text in K. destruct K as [_ K].
  destruct (closed_complete _ _ _ _ _ _ _ ED P HC2) as (_ & LT & _). rewrite outs_text in LT. split; [now apply basic_text_spec|]. auto.
Qed.
