(** A duplexer with colours on its writing side. *)
From Coq Require Import NArith Arith List Bool Lia ZifyBool ZifyNat ZifyN.
From Verif Require Import Base Ucd UcdTables Norm Chars TextTables TextUtils UcdFacts NormFacts CharFacts DocTable SpecText TextFacts PipelineFacts DocFacts IsoFacts
  Utf8 Utf8Facts Input Output ReadFacts SpecEscape SpecWrite WriteFacts WriteProps WriteColour SpecColour ColourProps SpecFrag FragProps Copy CopyProps Duplex SpecDuplex DuplexProps SpecDuplexColour.
Import ListNotations.
Local Open Scope N_scope.
Arguments N.add : simpl never.
Arguments N.leb : simpl never.
Arguments N.ltb : simpl never.
Arguments N.eqb : simpl never.
Local Opaque pipeline.

(** * Any operations: where the sent text ends *)
(** [t]: what the stream below had accepted at some time *)
Definition since (t : list N) (w : writer) : Prop :=
  exists u, emitted (inner w) = t ++ u /\ (abandoned (inner w) = false -> buffer w = [] /\ (wst w = WGround Newline -> line_terminated u)).
Lemma sm_char_line : forall t w c w', sm_char w c = (None, w') -> ends_at_line t w -> ends_at_line t w'.
Proof.
  intros t w c w' H H3. unfold sm_char in H. unfold ends_at_line in *. destruct (wst w) as [g| |] eqn:EW.
  - destruct ((c =? ESC) && ansi w) eqn:E1; [injection H as <-; cbn; discriminate|].
    destruct (c =? LF) eqn:E2.
    + injection H as <-. cbn. intros _. apply WriteColour.ends_snoc.
    + destruct (c =? SUB) eqn:E3; [discriminate|]. destruct (c =? ESC) eqn:E4; [discriminate|]. injection H as <-. cbn. unfold ground_of. destruct (is_basic_text_end c); discriminate.
  - destruct (c =? 91) eqn:E1; [|discriminate]. injection H as <-. cbn. discriminate.
  - destruct (in_range c 32 63) eqn:E1; [|destruct (c =? 109) eqn:E2; [|discriminate]]; injection H as <-; cbn; discriminate.
Qed.
Lemma sm_chars_line : forall cs t w w', sm_chars w cs = (None, w') -> ends_at_line t w -> ends_at_line t w'.
Proof.
  induction cs as [|c cs IH]; intros t w w' H HI; cbn [sm_chars] in H; [now injection H as <-|].
  destruct (sm_char w c) as [[e|] w1] eqn:E; [discriminate|]. eapply IH; [exact H|]. eapply sm_char_line; eauto.
Qed.
Lemma crlf_rest_line : forall segs t w w', crlf_rest w segs = (None, w') -> ends_at_line t w -> ends_at_line t w' /\ inner w' = inner w.
Proof.
  induction segs as [|s segs IH]; intros t w w' H HI; cbn [crlf_rest] in H; [injection H as <-; auto|].
  destruct (state_machine (push_crlf w) s) as [[e|] w1] eqn:E; [discriminate|]. destruct (sm_chars_same _ _ _ _ E) as (Q & _).
  destruct (IH t w1 w' H) as [K1 K2].
  - eapply sm_chars_line; [exact E|]. intros _. unfold push_crlf. cbn. right. exists (t ++ buffer w ++ [CR]). now rewrite <- !app_assoc.
  - split; [exact K1|]. rewrite K2, Q by reflexivity. reflexivity.
Qed.
Lemma write_buffer_since : forall t u w r w', write_buffer w = (r, w') -> emitted (inner w) = t ++ u -> ends_at_line u w -> since t w'.
Proof.
  intros t u w r w' H E EN. unfold write_buffer in H. destruct (_ && _).
  - injection H as <- <-. exists u. cbn. split; [exact E|discriminate].
  - cbn [set_exp inner buffer] in H. unfold sink_write in H. destruct (abandoned (inner w)) eqn:A.
    + injection H as <- <-. exists u. cbn. split; [exact E|discriminate].
    + destruct (script (inner w)) as [|[|n] o]; injection H as <- <-.
      * exists (u ++ buffer w). cbn. rewrite E, <- app_assoc. auto.
      * exists (u ++ buffer w). cbn. rewrite E, <- app_assoc. auto.
      * exists (u ++ firstn n (buffer w)). cbn. rewrite E, <- app_assoc. split; [reflexivity|discriminate].
Qed.
Lemma since_dead : forall t w w', since t w -> dead w' -> emitted (inner w') = emitted (inner w) -> since t w'.
Proof. intros t w w' (u & E & _) [_ D] EM. exists u. rewrite EM. split; [exact E|]. congruence. Qed.
Lemma write_str_since : forall t w s r w', write_str w s = (r, w') -> since t w -> since t w'.
Proof.
  intros t w s r w' H S. pose proof S as (u & E & K). destruct (abandoned (inner w)) eqn:EA.
  - destruct (write_str_props _ _ _ _ H) as [G1 G2]. destruct (G2 EA) as [G3 G4]. exact (since_dead t w w' S (G1 G3) G4).
  - destruct (K eq_refl) as [B L]. unfold write_str, and_then in H. destruct (if crlf w then _ else _) as [[e|] w1] eqn:E1.
    + injection H as <- <-. destruct (first_phase _ _ _ _ E1) as (A & _ & G). apply (since_dead t w w1 S); [apply A; discriminate|exact G].
    + assert (EL : ends_at_line u w) by (intro; rewrite B, app_nil_r; auto).
      assert (ends_at_line u w1 /\ inner w1 = inner w) as [EL1 EI].
      { destruct (crlf w).
        - unfold crlf_segs in E1. destruct (split_lf s) as [|x l]; [injection E1 as <-; auto|]. destruct (state_machine w x) as [[e1|] w2] eqn:E2; [discriminate|].
          destruct (sm_chars_same _ _ _ _ E2) as (Q & _). destruct (crlf_rest_line _ u _ _ E1 (sm_chars_line _ _ _ _ E2 EL)) as [K1 K2]. split; [exact K1|]. rewrite K2. now apply Q.
        - destruct (sm_chars_same _ _ _ _ E1) as (Q & _). split; [exact (sm_chars_line _ _ _ _ E1 EL)|now apply Q]. }
      rewrite <- EI in E. exact (write_buffer_since t u w1 r w' H E EL1).
Qed.
Lemma as_sent_last : forall cr s, (exists u, s = u ++ [0xA]) -> exists u, as_sent cr s = u ++ [0xA].
Proof. intros cr s [u ->]. destruct cr; cbn [as_sent]; [|eauto]. rewrite expand_app. exists (expand u ++ [CR]). now rewrite <- app_assoc. Qed.
Lemma write_text_since : forall t w s r w', write_text w s = (r, w') -> s <> [] -> since t w -> since t w'.
Proof.
  intros t w s r w' H NE S. pose proof S as (u & E & K). destruct (abandoned (inner w)) eqn:EA.
  - destruct (write_text_props _ _ _ _ H) as [G1 G2]. destruct (G2 EA) as [G3 G4]. exact (since_dead t w w' S (G1 G3) G4).
  - rewrite write_text_eq in H by exact NE. apply (write_buffer_since t u _ r w' H); [exact E|]. unfold ends_at_line. cbn.
    destruct (text_ground_cases s) as [[G [->|L]]|(c & L & NL & G)]; [congruence| |].
    + intros _. apply last_opt_some in L. destruct (as_sent_last (crlf w) s L) as [v ->]. right. exists (u ++ buffer w ++ v). now rewrite <- !app_assoc.
    + destruct s; [congruence|]. cbn [after]. rewrite G. unfold ground_of. destruct (is_basic_text_end c); discriminate.
Qed.
Lemma op_since : forall t w o r w', do_op w o = (r, w') -> plain_op o -> since t w -> since t w'.
Proof.
  intros t w o r w' H HP S. pose proof S as (u & E & K). destruct o as [s|s|bs| | |]; cbn [do_op] in H.
  - eapply write_str_since; eauto.
  - destruct HP. eapply write_text_since; eauto.
  - unfold write_bytes in H. destruct (decode bs) as [cs rs]. destruct rs as [|b rs].
    + destruct (write_str w cs) as [r0 w0] eqn:EW. assert (H' : (r0, w0) = (r, w')) by (destruct cs; exact H). injection H' as <- <-. eapply write_str_since; eauto.
    + destruct cs as [|c cs].
      * injection H as <- <-. apply (since_dead t w _ S); try reflexivity. split; reflexivity.
      * destruct (write_str w (c :: cs)) as [r0 w0] eqn:EW. injection H as <- <-. eapply write_str_since; eauto.
  - unfold flush in H. destruct (wst w) as [[]| |] eqn:EW; try (injection H as <- <-; now (apply (since_dead t w _ S); try reflexivity; split; reflexivity));
      try (injection H as <- <-; exact S); unfold sink_call, sink_write in H; destruct (abandoned (inner w)) eqn:EA;
      try (injection H as <- <-; exists u; cbn; rewrite EA; split; [exact E|discriminate]);
      destruct (K eq_refl) as (B & EN); destruct (script (inner w)) as [|[|n] o]; injection H as <- <-; exists u; cbn;
      rewrite ?firstn_nil, ?app_nil_r in *; rewrite EW in *; repeat split; auto.
  - unfold close, check_nl, and_then in H. cbn [set_exp wst] in H.
    destruct (wst w) as [[]| |] eqn:EW; try (injection H as <- <-; now (apply (since_dead t w _ S); try reflexivity; split; reflexivity)).
    unfold sink_call, sink_write in H. cbn [inner set_exp] in H. destruct (abandoned (inner w)) eqn:EA.
    + injection H as <- <-; exists u; cbn; rewrite EA; split; [exact E|discriminate].
    + destruct (K eq_refl) as (B & EN); destruct (script (inner w)) as [|[|n] o]; injection H as <- <-; exists u; cbn;
      rewrite ?firstn_nil, ?app_nil_r in *; rewrite EW in *; repeat split; auto.
  - injection H as <- <-. apply (since_dead t w _ S); try reflexivity. split; reflexivity.
Qed.
(** without lines read *)
Lemma dop_since : forall t x o r x', wf (din x) -> do_dop x o = (r, x') -> plain_dop o -> since t (dout x) -> wf (din x') /\ (line_read r = false -> since t (dout x')) /\ since (emitted (inner (dout x'))) (dout x').
Proof.
  intros t x o r x' W H P S. assert (NEW : forall w, since t w -> since (emitted (inner w)) w).
  { intros w (u & E & K). exists []. rewrite app_nil_r. split; [reflexivity|]. intro A. destruct (K A) as [B _]. split; [exact B|]. intros _. now left. }
  destruct o as [b|o].
  - cbn [do_dop] in H. unfold duplex_read in H. destruct (read (din x) (dscript x) b) as [[[y cs] i] sc] eqn:ER. injection H as <- <-. cbn [dout din]. split; [exact (read_wf _ _ _ _ _ _ _ W ER)|].
    destruct y as [n s| |]; try (split; [intros _; exact S|apply NEW; exact S]). rewrite (read_line_flag n s cs) by exact (read_count _ _ _ _ _ _ _ _ W ER).
    destruct (line_read (DGot (ROk n s) cs)); cbn [newline]; [|split; [intros _; exact S|apply NEW; exact S]]. split; [discriminate|].
    destruct S as (u & E & K). exists []. cbn. rewrite app_nil_r. split; [reflexivity|]. intro A. destruct (K A) as [B _]. split; [exact B|]. intros _. now left.
  - destruct P as [P NA]. rewrite do_dop_out in H by exact NA. destruct (do_op (dout x) o) as [e w] eqn:EO. injection H as <- <-. cbn [dout din]. pose proof (op_since _ _ _ _ _ EO P S) as S'. split; [exact W|].
    split; [intros _; exact S'|apply NEW; exact S'].
Qed.
Lemma dops_since : forall os t x rs x', wf (din x) -> do_dops x os = (rs, x') -> Forall plain_dop os -> since t (dout x) ->
  wf (din x') /\ (Forall (fun r => line_read r = false) rs -> since t (dout x')) /\ since (emitted (inner (dout x'))) (dout x').
Proof.
  induction os as [|o os IH]; intros t x rs x' W H F S; cbn [do_dops] in H.
  - injection H as <- <-. split; [exact W|]. split; [auto|]. destruct S as (u & E & K). exists []. rewrite app_nil_r. split; [reflexivity|]. intro A. destruct (K A) as [B _]. split; [exact B|]. intros _. now left.
  - inversion F as [|? ? F1 F2]; subst. destruct (do_dop x o) as [r x1] eqn:E1. destruct (do_dops x1 os) as [rs1 x2] eqn:E2. injection H as <- <-.
    destruct (dop_since _ _ _ _ _ W E1 F1 S) as (W1 & S1 & N1). destruct (IH _ _ _ _ W1 E2 F2 N1) as (W2 & _ & N2). split; [exact W2|]. split; [|exact N2].
    intro A. inversion A; subst. exact (proj1 (proj2 (IH _ _ _ _ W1 E2 F2 (S1 ltac:(assumption)))) ltac:(assumption)).
Qed.
Theorem close_since : forall nel lsps cr an p o sc os1 rs1 x1 os2 rs2 x2 w', do_dops (new_duplexer nel lsps cr an (mksink p o false) sc) os1 = (rs1, x1) -> Forall plain_dop os1 ->
  do_dops x1 os2 = (rs2, x2) -> Forall plain_dop os2 -> Forall (fun r => line_read r = false) rs2 -> close (dout x2) = (None, w') ->
  exists u, emitted (inner w') = emitted (inner (dout x1)) ++ u /\ line_terminated u.
Proof.
  intros nel lsps cr an p o sc os1 rs1 x1 os2 rs2 x2 w' H1 F1 H2 F2 NL HC.
  assert (S0 : since p (dout (new_duplexer nel lsps cr an (mksink p o false) sc))) by (exists []; cbn; rewrite app_nil_r; repeat split; auto; now left).
  destruct (dops_since _ _ _ _ _ (wf_new nel lsps : wf (din (new_duplexer nel lsps cr an (mksink p o false) sc))) H1 F1 S0) as (W1 & _ & N1).
  destruct (dops_since _ _ _ _ _ W1 H2 F2 N1) as (_ & S2 & _). destruct (op_since _ _ OpClose None w' HC I (S2 NL)) as (u & E & K). exists u. split; [exact E|].
  assert (AB : abandoned (inner w') = false).
  { unfold close, check_nl, and_then in HC. cbn [set_exp wst] in HC. destruct (wst (dout x2)) as [[]| |]; try discriminate.
    unfold sink_call, sink_write in HC. cbn [inner set_exp] in HC. destruct (abandoned (inner (dout x2))); [discriminate|]. destruct (script (inner (dout x2))) as [|[|n] oo]; try discriminate; injection HC as <-; reflexivity. }
  apply (proj2 (K AB)). exact (close_quiet _ _ _ HC).
Qed.

(** * Well-formed sequences: exactly *)
Lemma newline_orefines : forall cr o d w, orefines cr o d w -> orefines cr [] (mkdoc [] (sent d) (fresh d) (failed d) (outcomes d)) (newline w true).
Proof.
  intros cr o d w H. unfold orefines in *. cbn [failed sent]. destruct (failed d) eqn:EF.
  - destruct H as [[H1 H2] H3]. cbn. repeat split; auto.
  - destruct H as (_ & w0 & -> & HA & HR). split; [constructor|]. eexists. split; [reflexivity|]. split; [destruct o; exact HA|].
    destruct HR as (H1 & H2 & H3 & H4 & H5 & H6 & H7). rewrite EF in H5, H7. destruct H7 as (B & X & _). unfold refines, newline, plainly. cbn in *. destruct o; cbn; auto 12.
Qed.
Lemma dfops_refine : forall xs cr o d x rs x', wf (din x) -> orefines cr o d (dout x) -> do_dops x (map dfop_op xs) = (rs, x') -> dfops_ok o xs rs ->
  spec_dresults cr o d xs rs /\ orefines cr (fst (spec_dfops cr o d xs rs)) (snd (spec_dfops cr o d xs rs)) (dout x').
Proof.
  induction xs as [|y xs IH]; intros cr o d x rs x' W R H F; cbn [map do_dops] in H; [injection H as <- <-; split; [exact I|exact R]|].
  destruct (do_dop x (dfop_op y)) as [r x1] eqn:E1. destruct (do_dops x1 (map dfop_op xs)) as [rs1 x2] eqn:E2. injection H as <- <-. destruct F as [F1 F2]. cbn [spec_dresults spec_dfops].
  assert (K : match y, r with DFRead _, DGot _ _ => True | DFOut z, DWrote e => ok e = fst (spec_fop cr o d z) | _, _ => False end /\ orefines cr (dleft_open o y r) (spec_dfop cr o d y r) (dout x1) /\ wf (din x1)).
  { destruct y as [b|z]; cbn [dfop_op] in E1.
    - cbn [do_dop] in E1. unfold duplex_read in E1. destruct (read (din x) (dscript x) b) as [[[y cs] i] sc] eqn:ER. injection E1 as <- <-. split; [exact I|]. cbn [dout din dleft_open spec_dfop].
      split; [|exact (read_wf _ _ _ _ _ _ _ W ER)]. destruct y as [n s| |]; try exact R. rewrite (read_line_flag n s cs) by exact (read_count _ _ _ _ _ _ _ _ W ER).
      destruct (line_read (DGot (ROk n s) cs)); [eapply newline_orefines; exact R|exact R].
    - destruct F1 as [F1 NA]. rewrite do_dop_out in E1 by (destruct z; try discriminate; congruence). destruct (fop_refines cr o d (dout x) z R F1) as [E R'].
      destruct (do_op (dout x) (fop_op z)) as [e w]. injection E1 as <- <-. cbn [dout din dleft_open spec_dfop fst snd] in *. auto. }
  destruct K as (K1 & K2 & K3). destruct (IH _ _ _ _ _ _ K3 K2 E2 F2) as [S2 R2]. auto.
Qed.
Theorem duplex_colour : forall nel lsps cr p o sc xs rs x, do_dops (new_duplexer nel lsps cr true (mksink p o false) sc) (map dfop_op xs) = (rs, x) -> dfops_ok [] xs rs ->
  let d := snd (spec_dfops cr [] (new_doc p o) xs rs) in
  spec_dresults cr [] (new_doc p o) xs rs /\ emitted (inner (dout x)) = sent d /\ abandoned (inner (dout x)) = failed d.
Proof.
  intros nel lsps cr p o sc xs rs x H F. cbv zeta.
  destruct (dfops_refine xs cr [] (new_doc p o) _ rs x (wf_new nel lsps : wf (din (new_duplexer nel lsps cr true (mksink p o false) sc))) (new_orefines cr p o) H F) as [S R].
  split; [exact S|]. destruct (spec_dfops cr [] (new_doc p o) xs rs) as [h d]. cbn [fst snd] in *. unfold orefines in R. destruct (failed d) eqn:EF.
  - destruct R as [[_ R2] R3]. auto.
  - destruct R as (_ & w0 & -> & _ & _ & _ & _ & R1 & R2 & _). rewrite EF in R2. destruct h; auto.
Qed.
Lemma dshown_text : forall xs rs cr o d, spec_dresults cr o d xs rs -> dfops_ok o xs rs -> failed (snd (spec_dfops cr o d xs rs)) = false ->
  failed d = false /\ text (snd (spec_dfops cr o d xs rs)) = dshown_since (text d) o xs rs /\ sent (snd (spec_dfops cr o d xs rs)) = sent d ++ as_sent cr (dshown o xs rs).
Proof.
  assert (NA : forall cr, as_sent cr [] = []) by (intros [|]; reflexivity).
  induction xs as [|y xs IH]; intros [|r rs] cr o d H K F; try destruct H; try destruct K.
  - cbn in *. rewrite NA, app_nil_r. auto.
  - cbn [spec_dfops dshown_since dshown] in *. destruct (IH _ _ _ _ H0 H2 F) as (F1 & T & S). rewrite T, S. destruct y as [b|z]; cbn [spec_dfop dleft_open] in *.
    + destruct r; try destruct H. cbn [app]. rewrite app_nil_r. destruct (line_read _); cbn in *; auto.
    + destruct r as [x cs|e|]; try destruct H. cbn [line_read]. destruct (spec_fop cr o d z) as [b d'] eqn:E. cbn [fst snd] in *.
      destruct (fop_added _ _ _ _ _ _ E (proj1 H1) F1) as (F0 & T0 & S0 & _). rewrite as_sent_app, app_assoc, T0, S0. auto.
Qed.
Theorem duplex_colour_close : forall nel lsps cr p o sc xs rs x w', do_dops (new_duplexer nel lsps cr true (mksink p o false) sc) (map dfop_op xs) = (rs, x) -> dfops_ok [] xs rs ->
  close (dout x) = (None, w') ->
  fst (spec_dfops cr [] (new_doc p o) xs rs) = [] /\ line_terminated (dshown_since [] [] xs rs) /\ emitted (inner w') = p ++ as_sent cr (dshown [] xs rs).
Proof.
  intros nel lsps cr p o sc xs rs x w' H F C.
  destruct (dfops_refine xs cr [] (new_doc p o) _ rs x (wf_new nel lsps : wf (din (new_duplexer nel lsps cr true (mksink p o false) sc))) (new_orefines cr p o) H F) as [S R].
  pose proof (dshown_text xs rs cr [] (new_doc p o) S F) as T.
  destruct (spec_dfops cr [] (new_doc p o) xs rs) as [h d]. cbn [fst snd] in *. destruct (fop_refines cr h d (dout x) FClose R I) as [K R']. cbn [fop_op do_op] in K, R'. rewrite C in K, R'.
  cbn [fst snd ok spec_fop left_open] in K, R'. destruct h as [|a h]; [|discriminate]. split; [reflexivity|].
  destruct (spec_close d) as [b d'] eqn:E. cbn [fst snd] in *. subst b. unfold spec_close in E. destruct (failed d) eqn:EF; [discriminate|]. destruct (T eq_refl) as (_ & T1 & T2). cbn [new_doc text sent] in T1, T2. rewrite T1 in E.
  assert (SC : spec_call d = (true, d') -> failed d' = false /\ sent d' = sent d) by (unfold spec_call; destruct (outcomes d) as [|[|n] oo]; intro Q; inversion Q; subst; cbn; auto).
  assert (LT : line_terminated (dshown_since [] [] xs rs) /\ spec_call d = (true, d')).
  { destruct (last_opt (dshown_since [] [] xs rs)) as [c|] eqn:EL.
    - destruct (N.eqb_spec c 0xA) as [->|NE]; [|discriminate]. split; [right; exact (proj1 (last_opt_some _ _ _) EL)|exact E].
    - split; [left; exact (proj1 (last_opt_none _ _) EL)|exact E]. }
  destruct LT as [LT SC']. destruct (SC SC') as [F' S']. split; [exact LT|]. unfold orefines in R'. rewrite F' in R'. destruct R' as (_ & w0 & -> & _ & _ & _ & _ & R1 & _). cbn [opened].
  transitivity (sent d'); [exact R1|]. now rewrite S', T2.
Qed.
