(** An echo with flushes, exactly, and with colours. *)
From Coq Require Import NArith Arith List Bool Lia ZifyBool ZifyNat ZifyN.
From Verif Require Import Base Ucd UcdTables Norm Chars TextTables TextUtils UcdFacts NormFacts CharFacts DocTable SpecText TextFacts PipelineFacts DocFacts IsoFacts
  Utf8 Utf8Facts Input Output ReadFacts ReadInv ReadSession SpecRead ReadChunk SpecEscape EscapeFacts EscapeRun ReadProps KeepFacts ReadPieces SpecConv ConvFacts ReadMore
  SpecWrite WriteFacts WriteProps Copy CopyProps SpecMore CanonProps SpecCat CatProps SpecPrompt PromptProps Duplex DuplexCopy SpecColour ColourProps Echo EchoProps.
Import ListNotations.
Local Open Scope N_scope.
Arguments N.add : simpl never.
Arguments N.leb : simpl never.
Arguments N.ltb : simpl never.
Arguments N.eqb : simpl never.
Local Opaque pipeline.

Lemma echo_flush_stuck : forall sizes cr d x rs j sc' rs2 d2, wf (din d) -> refines cr x (dout d) -> failed x = false -> outcomes x = [] -> fresh x = true -> reads (din d) (dscript d) sizes = (rs, j, sc') ->
  Forall plain_op (map OpWriteText (texts rs)) -> echo true d sizes = (rs2, None, d2) -> Forall (fun t => starts_ok t /\ ends_ok t) (texts rs).
Proof.
  induction sizes as [|b sizes IH]; intros cr d x rs j sc' rs2 d2 W RF NFx OX FX R PL EC; cbn [reads] in R.
  - injection R as <- <- <-. exact (Forall_nil _).
  - destruct (read (din d) (dscript d) b) as [[[r cs] i1] sc1] eqn:ER. destruct (reads i1 sc1 sizes) as [[rs1 j1] sc2] eqn:ERS. injection R as <- <- <-.
    cbn [echo] in EC. destruct (duplex_read d b) as [[r0 cs0] d1] eqn:ED. destruct (duplex_read_eq _ _ _ _ _ ED) as (j0 & s0 & E0 & EJ & ES & EO). rewrite ER in E0. injection E0 as <- <- <- <-.
    pose proof (read_wf _ _ _ _ _ _ _ W ER) as W1.
    assert (SKIP : texts [(r, cs)] = [] -> echo_write true d1 r cs = (None, d1) -> dout d1 = dout d -> Forall (fun t => starts_ok t /\ ends_ok t) (texts ((r, cs) :: rs1))).
    { intros TX EW DD. rewrite EW in EC. destruct (echo true d1 sizes) as [[rs3 e3] d3] eqn:E3. injection EC as _ -> <-.
      assert (T1 : texts ((r, cs) :: rs1) = texts rs1) by (change ((r, cs) :: rs1) with ([(r, cs)] ++ rs1); unfold texts; rewrite flat_map_app; fold (texts [(r, cs)]); now rewrite TX).
      rewrite T1 in *. apply (IH cr d1 x rs1 j1 sc2 rs3 d3); try (rewrite ?EJ, ?ES, ?DD; assumption). }
    destruct r as [[|n] s| |]; try (apply SKIP; [reflexivity|reflexivity|exact EO]). clear SKIP.
    destruct EO as [nl EO]. cbn [texts flat_map fst snd app] in PL |- *. fold (texts rs1) in PL |- *. cbn [map] in PL. inversion PL as [|? ? P1 P2]; subst.
    cbn [echo_write] in EC. unfold duplex_write_text in EC. rewrite EO, write_text_newline in EC.
    destruct (op_refines cr _ _ (OpWriteText cs) RF P1) as [C1 C2]. cbn [do_op spec_op] in C1, C2. unfold spec_write_text in C1, C2. rewrite NFx in C1, C2. unfold spec_send in C1, C2. rewrite FX, OX in C1, C2. cbn [andb] in C1, C2.
    destruct (opt_all is_basic_text_start (head_opt cs)) eqn:HS; cbn [negb fst snd] in C1, C2.
    2:{ exfalso. destruct (write_text (dout d) cs) as [[e1|] w1]; cbn [fst snd ok] in C1; discriminate. }
    destruct (write_text (dout d) cs) as [[e1|] w1]; cbn [fst snd ok] in C1, C2; [discriminate|].
    unfold duplex_flush in EC. cbn [dout din dscript] in EC.
    destruct (op_refines cr _ _ OpFlush C2 I) as [F1 F2]. cbn [do_op spec_op] in F1, F2. unfold spec_flush in F1, F2. cbn [failed SpecWrite.text] in F1, F2.
    assert (HL : last_opt (SpecWrite.text x ++ cs) = last_opt cs).
    { destruct P1 as [NE _]. destruct (exists_last NE) as (u & c & ->). now rewrite app_assoc, !last_opt_snoc. }
    rewrite HL in F1, F2. destruct (opt_all is_basic_text_end (last_opt cs)) eqn:HE; cbn [spec_call outcomes fst snd SpecWrite.text sent failed] in F1, F2.
    2:{ exfalso. destruct (flush w1) as [[e1|] w2]; cbn [fst snd ok] in F1; discriminate. }
    destruct (flush w1) as [[e1|] w2]; cbn [fst snd ok] in F1, F2; [discriminate|].
    destruct (echo true {| din := din d1; dout := w2; dscript := dscript d1 |} sizes) as [[rs3 e3] d3] eqn:E3. injection EC as _ -> <-.
    constructor; [split; [now apply starts_ok_iff|now apply ends_ok_iff]|].
    refine (IH cr {| din := din d1; dout := w2; dscript := dscript d1 |} _ rs1 j1 sc2 rs3 d3 _ F2 _ _ _ _ _ E3); try reflexivity; assumption.
Qed.
Lemma texts_each : forall (P : list N -> Prop) sizes i sc rs j sc', P [] -> wf i -> no_fail sc -> reads i sc sizes = (rs, j, sc') -> Forall P (texts rs) <-> Forall (fun r => P (snd r)) rs.
Proof.
  intros P sizes i sc rs j sc' P0 W NF R. pose proof (ReadProps.received_delivered _ _ _ _ _ _ W NF R) as RD.
  revert i sc rs j sc' W NF R RD. induction sizes as [|b sizes IH]; intros i sc rs j sc' W NF R RD; cbn [reads] in R.
  - injection R as <- <- <-. split; constructor.
  - destruct (read i sc b) as [[[r cs] i1] sc1] eqn:ER. destruct (reads i1 sc1 sizes) as [[rs1 j1] sc2] eqn:ERS. injection R as <- <- <-.
    destruct (ReadProps.read_no_fail _ _ _ _ _ _ _ W NF ER) as (A & A2 & NF1). pose proof (read_wf _ _ _ _ _ _ _ W ER) as W1.
    specialize (IH _ _ _ _ _ W1 NF1 ERS (ReadProps.received_delivered _ _ _ _ _ _ W1 NF1 ERS)).
    assert (SK : cs = [] -> texts ((r, cs) :: rs1) = texts rs1 -> Forall P (texts ((r, cs) :: rs1)) <-> Forall (fun r => P (snd r)) ((r, cs) :: rs1)).
    { intros -> ->. rewrite IH. split; intro K; [now constructor|now inversion K]. }
    destruct r as [[|n] s| |].
    + apply SK; [|reflexivity]. apply str_len_zero. symmetry. exact (read_count _ _ _ _ _ _ _ _ W ER).
    + cbn [texts flat_map fst snd app]. fold (texts rs1). split; intro K; inversion K; subst; constructor; try assumption; now apply IH.
    + apply SK; [|reflexivity]. cbn [received delivered flat_map fst snd app] in RD. fold (received rs1) (delivered rs1) in RD. rewrite (ReadProps.received_delivered _ _ _ _ _ _ W1 NF1 ERS) in RD.
      destruct cs as [|c cs]; [reflexivity|]. exfalso. apply (f_equal (@length N)) in RD. cbn in RD. rewrite app_length in RD. lia.
    + apply SK; [|reflexivity]. cbn [received delivered flat_map fst snd app] in RD. fold (received rs1) (delivered rs1) in RD. rewrite (ReadProps.received_delivered _ _ _ _ _ _ W1 NF1 ERS) in RD.
      destruct cs as [|c cs]; [reflexivity|]. exfalso. apply (f_equal (@length N)) in RD. cbn in RD. rewrite app_length in RD. lia.
Qed.
(** Exactly when an echo with flushes works. *)
Theorem echo_flush_exact : forall nel lsps cr p sc sizes rs j rest rs2 e d, no_fail sc -> reads (new_input nel lsps) sc sizes = (rs, j, rest) ->
  echo true (new_duplexer nel lsps cr false (mksink p [] false) sc) sizes = (rs2, e, d) ->
  e = None <-> Forall (fun r => starts_ok (snd r) /\ ends_ok (snd r)) rs.
Proof.
  intros nel lsps cr p sc sizes rs j rest rs2 e d NF R EC. split.
  - intros ->. apply (texts_each (fun t => starts_ok t /\ ends_ok t) sizes (new_input nel lsps) sc rs j rest); [split; [now apply starts_ok_iff|now apply ends_ok_iff]|apply wf_new|exact NF|exact R|].
    destruct (texts_received _ _ _ _ _ _ (wf_new nel lsps) R) as [TR TN]. destruct (received_substr _ _ _ _ _ _ _ R NF) as [SS _]. rewrite <- TR in SS.
    apply (echo_flush_stuck sizes cr (new_duplexer nel lsps cr false (mksink p [] false) sc) (new_doc p []) rs j rest rs2 d); try reflexivity; [apply wf_new|apply new_refines|exact R|now apply pieces_substr|exact EC].
  - intro F. destruct (echo_flush nel lsps cr p sc sizes rs j rest NF R F) as (d2 & E2 & _). rewrite EC in E2. now injection E2.
Qed.
(** * With colours *)
Definition plain_d (d : duplexer) : duplexer := mkduplexer (din d) (plainly (dout d)) (dscript d).
Lemma newline_plainly : forall w nl, newline (plainly w) nl = plainly (newline w nl). Proof. now intros w [|]. Qed.
Lemma duplex_read_plainly : forall d b, duplex_read (plain_d d) b = (let '(r, cs, d') := duplex_read d b in (r, cs, plain_d d')).
Proof.
  intros d b. unfold duplex_read. cbn [plain_d din dscript dout]. destruct (read (din d) (dscript d) b) as [[[r cs] i] sc]. unfold plain_d. cbn [din dscript dout].
  destruct r; try reflexivity. now rewrite newline_plainly.
Qed.
Lemma echo_plainly : forall fl sizes d, echo fl (plain_d d) sizes = (let '(rs, e, d') := echo fl d sizes in (rs, e, plain_d d')).
Proof.
  intros fl sizes. induction sizes as [|b sizes IH]; intro d; [reflexivity|]. cbn [echo]. rewrite duplex_read_plainly. destruct (duplex_read d b) as [[r cs] d1].
  assert (K : echo_write fl (plain_d d1) r cs = (fst (echo_write fl d1 r cs), plain_d (snd (echo_write fl d1 r cs)))).
  { destruct r as [[|n] s| |]; try reflexivity. cbn [echo_write]. unfold duplex_write_text. cbn [plain_d din dout dscript]. destruct (text_both (dout d1) cs) as [A _]. cbv beta in A. rewrite A.
    destruct (write_text (dout d1) cs) as [[e|] w1]; cbn [fst snd]; [reflexivity|]. destruct fl; [|reflexivity]. unfold duplex_flush. cbn [din dout dscript].
    destruct (flush_both w1) as [B _]. rewrite B. destruct (flush w1) as [[e|] w2]; reflexivity. }
  rewrite K. destruct (echo_write fl d1 r cs) as [[e|] d2]; cbn [fst snd]; [reflexivity|]. rewrite IH. destruct (echo fl d2 sizes) as [[rs e] d3]. reflexivity.
Qed.
Theorem echo_colour : forall fl nel lsps cr k sc sizes rs e d, echo fl (new_duplexer nel lsps cr true k sc) sizes = (rs, e, d) ->
  exists d', echo fl (new_duplexer nel lsps cr false k sc) sizes = (rs, e, d') /\ din d' = din d /\ dscript d' = dscript d /\ inner (dout d') = inner (dout d) /\
  fst (close (dout d')) = fst (close (dout d)) /\ inner (snd (close (dout d'))) = inner (snd (close (dout d))).
Proof.
  intros fl nel lsps cr k sc sizes rs e d H. exists (plain_d d). split; [|do 3 (split; [reflexivity|])].
  - change (new_duplexer nel lsps cr false k sc) with (plain_d (new_duplexer nel lsps cr true k sc)). now rewrite echo_plainly, H.
  - destruct (close_both (dout d)) as [A _]. cbn [plain_d dout]. rewrite A. now split.
Qed.
