(** A program that sends back what it reads. *)
From Coq Require Import NArith Arith List Bool Lia ZifyBool ZifyNat ZifyN.
From Verif Require Import Base Ucd UcdTables Norm Chars TextTables TextUtils UcdFacts NormFacts CharFacts DocTable SpecText TextFacts PipelineFacts DocFacts IsoFacts
  Utf8 Utf8Facts Input Output ReadFacts ReadInv ReadSession SpecRead ReadChunk SpecEscape EscapeFacts EscapeRun ReadProps KeepFacts ReadPieces SpecConv ConvFacts ReadMore
  SpecWrite WriteFacts WriteProps Copy CopyProps SpecMore CanonProps SpecCat CatProps SpecPrompt PromptProps LineEnd Duplex DuplexCopy Echo.
Import ListNotations.
Local Open Scope N_scope.
Arguments N.add : simpl never.
Arguments N.leb : simpl never.
Arguments N.ltb : simpl never.
Arguments N.eqb : simpl never.
Local Opaque pipeline.

Lemma write_text_wst : forall w x s, write_text (set_wst w x) s = write_text w s.
Proof.
  intros [b cr ex an st es k] x s. unfold write_text. cbn [set_wst crlf]. destruct cr; [|reflexivity]. destruct (split_lf s) as [|seg segs] eqn:E; [|reflexivity].
  exfalso. destruct s as [|c s]; [discriminate|]. cbn in E. destruct (c =? LF); [discriminate|]. destruct (split_lf s); discriminate.
Qed.
Lemma write_text_newline : forall w nl s, write_text (newline w nl) s = write_text w s.
Proof. intros w [|] s; [apply write_text_wst|reflexivity]. Qed.
(** One round. *)
Lemma duplex_read_eq : forall d b r cs d1, duplex_read d b = (r, cs, d1) -> exists j sc, read (din d) (dscript d) b = (r, cs, j, sc) /\ din d1 = j /\ dscript d1 = sc /\
  (match r with ROk (S _) _ => exists nl, dout d1 = newline (dout d) nl | _ => dout d1 = dout d end).
Proof.
  intros d b r cs d1 H. unfold duplex_read in H. destruct (read (din d) (dscript d) b) as [[[r0 cs0] j] sc] eqn:E. injection H as <- <- <-. exists j, sc. cbn [din dscript dout].
  do 3 (split; [reflexivity|]). destruct r0 as [[|n] s| |]; try reflexivity. now eexists.
Qed.
Lemma echo_ops : forall sizes d rs e d', echo false d sizes = (rs, e, d') -> exists outs, do_ops (dout d) (map OpWriteText (texts rs)) = (outs, dout d') /\
  (e = None -> length rs = length sizes /\ Forall (eq None) outs) /\ (e <> None -> ~ Forall (eq None) outs) /\ reads (din d) (dscript d) (firstn (length rs) sizes) = (rs, din d', dscript d').
Proof.
  induction sizes as [|b sizes IH]; intros d rs e d' H; cbn [echo] in H.
  - injection H as <- <- <-. exists []. cbn. repeat split; auto.
  - destruct (duplex_read d b) as [[r cs] d1] eqn:ER. apply duplex_read_eq in ER. destruct ER as (j & sc & ER & EJ & ES & ED).
    assert (GO : forall d2, din d2 = j -> dscript d2 = sc -> forall o, do_ops (dout d) (map OpWriteText (texts [(r, cs)])) = (o, dout d2) -> Forall (eq None) o -> forall rs1 e1 d3, echo false d2 sizes = (rs1, e1, d3) -> exists outs, do_ops (dout d) (map OpWriteText (texts ((r, cs) :: rs1))) = (outs, dout d3) /\
      (e1 = None -> length ((r, cs) :: rs1) = length (b :: sizes) /\ Forall (eq None) outs) /\ (e1 <> None -> ~ Forall (eq None) outs) /\ reads (din d) (dscript d) (firstn (length ((r, cs) :: rs1)) (b :: sizes)) = ((r, cs) :: rs1, din d3, dscript d3)).
    { intros d2 E1 E2 o DO FO rs1 e1 d3 EC. destruct (IH d2 rs1 e1 d3 EC) as (outs & D & K1 & K2 & R). exists (o ++ outs). split; [|split; [|split]].
      - change ((r, cs) :: rs1) with ([(r, cs)] ++ rs1). unfold texts. rewrite flat_map_app, map_app. fold (texts [(r, cs)]) (texts rs1).
        clear - DO D. revert DO. generalize (dout d) as w. intro w. revert o w. induction (map OpWriteText (texts [(r, cs)])) as [|x l IHl]; intros o w DO; cbn [do_ops app] in *; [injection DO as <- ->; exact D|].
        destruct (do_op w x) as [r1 w1]. destruct (do_ops w1 l) as [r2 w2] eqn:E. injection DO as <- ->. rewrite (IHl _ _ E). reflexivity.
      - intro K. destruct (K1 K) as [L F]. split; [cbn [length]; now rewrite L|]. apply Forall_app. now split.
      - intros K F. apply Forall_app in F. now apply (K2 K).
      - cbn [length firstn reads]. rewrite ER, <- E1, <- E2, R. reflexivity. }
    assert (SKIP : echo_write false d1 r cs = (None, d1) -> texts [(r, cs)] = [] -> dout d1 = dout d -> exists outs, do_ops (dout d) (map OpWriteText (texts rs)) = (outs, dout d') /\
      (e = None -> length rs = length (b :: sizes) /\ Forall (eq None) outs) /\ (e <> None -> ~ Forall (eq None) outs) /\ reads (din d) (dscript d) (firstn (length rs) (b :: sizes)) = (rs, din d', dscript d')).
    { intros EW TX DD. rewrite EW in H. destruct (echo false d1 sizes) as [[rs1 e1] d3] eqn:EC. injection H as <- <- <-. apply (GO d1 EJ ES []); [rewrite TX; cbn; now rewrite DD|constructor|exact EC]. }
    destruct r as [[|n] s| |]; try (apply SKIP; [reflexivity|reflexivity|exact ED]).
    destruct ED as [nl ED]. cbn [echo_write] in H. unfold duplex_write_text in H. rewrite ED, write_text_newline in H. destruct (write_text (dout d) cs) as [[x|] w2] eqn:EW.
    + injection H as <- <- <-. exists [Some x]. cbn [texts flat_map fst snd app map do_ops do_op]. rewrite EW. split; [reflexivity|]. split; [discriminate|]. split; [intros _ F; apply Forall_inv in F; discriminate|].
      cbn [length firstn reads]. rewrite ER. cbn [din dscript]. now rewrite EJ, ES.
    + destruct (echo false {| din := din d1; dout := w2; dscript := dscript d1 |} sizes) as [[rs1 e1] d3] eqn:EC. injection H as <- <- <-. refine (GO {| din := din d1; dout := w2; dscript := dscript d1 |} EJ ES [None] _ _ rs1 e1 d3 EC); [|now constructor].
      cbn [texts flat_map fst snd app map do_ops do_op dout]. rewrite EW. reflexivity.
Qed.
(** Whatever happens. *)
Theorem echo_any : forall nel lsps cr p o sc sizes rs e d, echo false (new_duplexer nel lsps cr false (mksink p o false) sc) sizes = (rs, e, d) ->
  reads (new_input nel lsps) sc (firstn (length rs) sizes) = (rs, din d, dscript d) /\ prefix_of (emitted (inner (dout d))) (p ++ as_sent cr (received rs)) /\
  (e = None -> length rs = length sizes /\ emitted (inner (dout d)) = p ++ as_sent cr (received rs)).
Proof.
  intros nel lsps cr p o sc sizes rs e d H. destruct (echo_ops _ _ _ _ _ H) as (outs & D & K & _ & R). cbn [new_duplexer din dscript dout] in D, R. split; [exact R|].
  destruct (texts_received _ _ _ _ _ _ (wf_new nel lsps) R) as [TR TN]. destruct (delivered_substr _ _ _ _ _ _ _ R) as [SS ST].
  pose proof (texts_plain _ SS TN) as PL. destruct (ops_refine _ cr _ _ (new_refines cr p o) PL) as [O1 O2]. rewrite D in O1, O2. cbn [fst snd] in O1, O2.
  destruct (spec_ops cr (new_doc p o) (map OpWriteText (texts rs))) as [bs d'] eqn:ES. cbn [fst snd] in O1, O2.
  destruct (spec_pieces_prefix cr (texts rs) (new_doc p o) _ _ eq_refl ES) as (P1 & P2). rewrite TR in P1, P2. cbn [new_doc sent] in P1, P2.
  destruct O2 as (_ & _ & _ & EM & _). rewrite EM. split; [exact P1|]. intro N. destruct (K N) as [L F]. split; [exact L|]. apply P2. rewrite <- O1. clear - F. induction F; constructor; [now subst|assumption].
Qed.
(** If the streams do not fail, everything is sent back. *)
Theorem echo_all : forall nel lsps cr p sc sizes rs e d, no_fail sc -> echo false (new_duplexer nel lsps cr false (mksink p [] false) sc) sizes = (rs, e, d) ->
  e = None /\ reads (new_input nel lsps) sc sizes = (rs, din d, dscript d) /\ emitted (inner (dout d)) = p ++ as_sent cr (received rs) /\
  (reached_end rs -> exists w, close (dout d) = (None, w) /\ emitted (inner w) = emitted (inner (dout d))).
Proof.
  intros nel lsps cr p sc sizes rs e d NF H. pose proof H as H0. apply echo_any in H0. destruct H0 as (R & _ & K). destruct (echo_ops _ _ _ _ _ H) as (outs & D & K1 & K2 & _). cbn [new_duplexer dout] in D.
  destruct (texts_received _ _ _ _ _ _ (wf_new nel lsps) R) as [TR TN]. destruct (received_substr _ _ _ _ _ _ _ R NF) as [SS ST]. rewrite <- TR in SS, ST.
  destruct (ops_refine _ cr _ _ (new_refines cr p []) (pieces_substr _ SS TN)) as [O1 O2]. rewrite D in O1, O2. cbn [fst snd] in O1, O2. rewrite (spec_pieces cr (texts rs) (new_doc p []) eq_refl eq_refl TN (fun _ => ST)) in O1, O2. cbn [fst snd] in O1, O2.
  assert (F : Forall (eq None) outs).
  { clear - O1. revert O1. generalize (texts rs). intro l. revert outs. induction l as [|x l IH]; intros [|[y|] outs] E; try discriminate; [constructor|]. cbn in E. injection E as E. constructor; auto. }
  assert (EN : e = None) by (destruct e; [exfalso; apply K2; [discriminate|exact F]|reflexivity]). subst e. destruct (K eq_refl) as [L EM]. rewrite L, firstn_all in R. split; [reflexivity|]. split; [exact R|]. split; [exact EM|].
  intros RE. destruct (session_is_text _ _ _ _ _ _ _ R NF RE) as [_ LT].
  destruct (op_refines cr _ _ OpClose O2 I) as [C1 C2]. cbn [do_op spec_op] in C1, C2. unfold spec_close in C1, C2. cbn [failed SpecWrite.text new_doc app] in C1, C2. rewrite TR in C1, C2.
  assert (KK : ok (fst (close (dout d))) = true /\ emitted (inner (snd (close (dout d)))) = p ++ as_sent cr (received rs)).
  { destruct LT as [E |[u E]]; rewrite E in *.
    - cbn in C1, C2. split; [exact C1|]. apply C2.
    - rewrite last_opt_snoc in C1, C2. change (10 =? 10) with true in C1, C2. cbv iota in C1, C2. split; [exact C1|]. apply C2. }
  destruct (close (dout d)) as [[e|] w']; cbn in KK; [destruct KK; discriminate|]. exists w'. split; [reflexivity|]. destruct KK as [_ ->]. now rewrite EM.
Qed.
(** The peer gets its own text back. *)
Theorem echo_returned : forall bom cr1 nel lsps cr t sc sizes rs e d, string_ok t -> line_terminated t -> Forall (fun c => is_assigned c = true) t ->
  stream_text sc = stored bom cr1 t -> regular sc -> no_fail sc -> echo false (new_duplexer nel lsps cr false (mksink [] [] false) sc) sizes = (rs, e, d) -> reached_end rs ->
  received rs = t /\ emitted (inner (dout d)) = as_sent cr t /\
  forall nel2 lsps2 sc2 t2, stream_text sc2 = emitted (inner (dout d)) -> regular sc2 -> gives nel2 lsps2 sc2 t2 -> t2 = t.
Proof.
  intros bom cr1 nel lsps cr t sc sizes rs e d OK LT A E [NP BV] NF H RE. destruct (echo_all _ _ _ _ _ _ _ _ _ NF H) as (_ & R & EM & _).
  assert (RT : received rs = t).
  { rewrite (ReadProps.received_delivered _ _ _ _ _ _ (wf_new nel lsps) NF R). exact (read_back _ _ _ _ _ _ _ _ _ _ OK LT A E NP BV R RE). }
  rewrite RT in EM. cbn [app] in EM. split; [exact RT|]. split; [exact EM|].
  intros nel2 lsps2 sc2 t2 E2 [NP2 BV2] (sz & rs2 & j2 & rest2 & R2 & RE2 & <-). rewrite EM in E2. exact (read_back false cr nel2 lsps2 t sc2 _ _ _ _ OK LT A E2 NP2 BV2 R2 RE2).
Qed.
(** What has not been sent back is at most the last line. *)
Theorem echo_prompt : forall nel lsps cr p used rest sizes rs e d j held, no_fail (used ++ rest) -> holds nel lsps used rest sizes rs j held -> left_room sizes rs ->
  echo false (new_duplexer nel lsps cr false (mksink p [] false) (used ++ rest)) sizes = (rs, e, d) ->
  emitted (inner (dout d)) = p ++ as_sent cr (delivered rs) /\ gives nel lsps used (delivered rs ++ held) /\ (held = [] \/ exists line, held = line ++ [0xA] /\ ~ In 0xA line) /\
  (~ In 0x1B (stream_text used) -> last_opt (stream_text used) = Some 0xA -> held = []).
Proof.
  intros nel lsps cr p used rest sizes rs e d j held NF H L EC. pose proof (conj (lines_prompt _ _ _ _ _ _ _ _ H L) (line_ended _ _ _ _ _ _ _ _ H L)) as K. destruct H as [R G].
  destruct (echo_all _ _ _ _ _ _ _ _ _ NF EC) as (_ & _ & EM & _). rewrite <- (ReadProps.received_delivered _ _ _ _ _ _ (wf_new nel lsps) NF R). split; [exact EM|]. split; [|exact K].
  now rewrite (ReadProps.received_delivered _ _ _ _ _ _ (wf_new nel lsps) NF R).
Qed.
(** With a flush after each text. *)
Lemma echo_flush_go : forall sizes cr d x rs j sc', wf (din d) -> refines cr x (dout d) -> failed x = false -> outcomes x = [] -> reads (din d) (dscript d) sizes = (rs, j, sc') ->
  Forall plain_op (map OpWriteText (texts rs)) -> Forall (fun t => starts_ok t /\ ends_ok t) (texts rs) ->
  exists d' x', echo true d sizes = (rs, None, d') /\ refines cr x' (dout d') /\ sent x' = sent x ++ as_sent cr (concat (texts rs)).
Proof.
  induction sizes as [|b sizes IH]; intros cr d x rs j sc' W RF NFx OX R PL OKS; cbn [reads] in R.
  - injection R as <- <- <-. exists d, x. split; [reflexivity|]. split; [exact RF|]. cbn. destruct cr; cbn; now rewrite app_nil_r.
  - destruct (read (din d) (dscript d) b) as [[[r cs] i1] sc1] eqn:ER. destruct (reads i1 sc1 sizes) as [[rs1 j1] sc2] eqn:ERS. injection R as <- <- <-.
    cbn [echo]. destruct (duplex_read d b) as [[r0 cs0] d1] eqn:ED. destruct (duplex_read_eq _ _ _ _ _ ED) as (j0 & s0 & E0 & EJ & ES & EO). rewrite ER in E0. injection E0 as <- <- <- <-.
    pose proof (read_wf _ _ _ _ _ _ _ W ER) as W1.
    assert (SKIP : texts [(r, cs)] = [] -> echo_write true d1 r cs = (None, d1) -> dout d1 = dout d -> exists d' x', (match echo_write true d1 r cs with (Some e, d2) => ([(r, cs)], Some e, d2) | (None, d2) => let '(rs, e, d3) := echo true d2 sizes in ((r, cs) :: rs, e, d3) end) = ((r, cs) :: rs1, None, d') /\ refines cr x' (dout d') /\ sent x' = sent x ++ as_sent cr (concat (texts ((r, cs) :: rs1)))).
    { intros TX -> DD. assert (T1 : texts ((r, cs) :: rs1) = texts rs1) by (change ((r, cs) :: rs1) with ([(r, cs)] ++ rs1); unfold texts; rewrite flat_map_app; fold (texts [(r, cs)]); now rewrite TX).
      rewrite T1 in *. destruct (IH cr d1 x rs1 j1 sc2) as (d' & x' & EC & RF' & SS); try (rewrite ?EJ, ?ES, ?DD; assumption). exists d', x'. rewrite EC. split; [reflexivity|]. split; [exact RF'|exact SS]. }
    destruct r as [[|n] s| |]; try (apply SKIP; [reflexivity|reflexivity|exact EO]). clear SKIP.
    destruct EO as [nl EO]. cbn [texts flat_map fst snd app] in PL, OKS. fold (texts rs1) in PL, OKS. cbn [map] in PL. inversion PL as [|? ? P1 P2]; subst. inversion OKS as [|? ? [O1 O2] O3]; subst.
    cbn [echo_write]. unfold duplex_write_text. rewrite EO, write_text_newline.
    destruct (op_refines cr _ _ (OpWriteText cs) RF P1) as [C1 C2]. cbn [do_op spec_op] in C1, C2. unfold spec_write_text in C1, C2. rewrite NFx in C1, C2. unfold spec_send in C1, C2.
    assert (HS : fresh x && negb (opt_all is_basic_text_start (head_opt cs)) = false).
    { destruct (fresh x); [|reflexivity]. destruct cs as [|c cs]; [reflexivity|]. cbn. now rewrite (O1 c cs eq_refl). }
    rewrite HS, OX in C1, C2. cbn [fst snd] in C1, C2. destruct (write_text (dout d) cs) as [[e1|] w1]; cbn [fst snd ok] in C1, C2; [discriminate|].
    unfold duplex_flush. cbn [dout din dscript].
    destruct (op_refines cr _ _ OpFlush C2 I) as [F1 F2]. cbn [do_op spec_op] in F1, F2. unfold spec_flush in F1, F2. cbn [failed SpecWrite.text] in F1, F2.
    assert (HE : opt_all is_basic_text_end (last_opt (SpecWrite.text x ++ cs)) = true).
    { destruct P1 as [NE _]. destruct (exists_last NE) as (u & c & ->). rewrite app_assoc, last_opt_snoc. cbn. exact (O2 u c eq_refl). }
    rewrite HE in F1, F2. cbn [spec_call outcomes fst snd SpecWrite.text sent failed] in F1, F2. destruct (flush w1) as [[e1|] w2]; cbn [fst snd ok] in F1, F2; [discriminate|].
    edestruct (IH cr {| din := din d1; dout := w2; dscript := dscript d1 |}) as (d' & x' & EC & RF' & SS); [exact W1|exact F2|reflexivity|reflexivity|exact ERS|exact P2|exact O3|].
    exists d', x'. rewrite EC. split; [reflexivity|]. split; [exact RF'|]. rewrite SS. cbn [sent texts flat_map fst snd app concat]. fold (texts rs1). now rewrite as_sent_app, app_assoc.
Qed.
Theorem echo_flush : forall nel lsps cr p sc sizes rs j rest, no_fail sc -> reads (new_input nel lsps) sc sizes = (rs, j, rest) ->
  Forall (fun r => starts_ok (snd r) /\ ends_ok (snd r)) rs ->
  exists d, echo true (new_duplexer nel lsps cr false (mksink p [] false) sc) sizes = (rs, None, d) /\ emitted (inner (dout d)) = p ++ as_sent cr (received rs).
Proof.
  intros nel lsps cr p sc sizes rs j rest NF R OKS. destruct (texts_received _ _ _ _ _ _ (wf_new nel lsps) R) as [TR TN]. destruct (received_substr _ _ _ _ _ _ _ R NF) as [SS _]. rewrite <- TR in SS.
  destruct (echo_flush_go sizes cr (new_duplexer nel lsps cr false (mksink p [] false) sc) (new_doc p []) rs j rest) as (d & x & EC & RF & S1); [apply wf_new|apply new_refines|reflexivity|reflexivity|exact R|now apply pieces_substr| |].
  - clear - OKS. induction OKS as [|[r cs] rs K _ IH]; [constructor|]. cbn [texts flat_map fst snd]. fold (texts rs). destruct r as [[|n] s| |]; cbn [app]; auto.
  - exists d. split; [exact EC|]. destruct RF as (_ & _ & _ & EM & _). rewrite EM, S1, TR. reflexivity.
Qed.
