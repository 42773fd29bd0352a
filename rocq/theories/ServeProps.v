(** A line server over a TextDuplexer. *)
From Coq Require Import NArith Arith List Bool Lia ZifyBool ZifyNat ZifyN.
From Verif Require Import Base Ucd UcdTables Norm Chars TextTables TextUtils UcdFacts NormFacts CharFacts DocTable SpecText TextFacts PipelineFacts DocFacts IsoFacts
  Utf8 Utf8Facts Input Output ReadFacts ReadInv ReadSession SpecRead ScalarFacts ReadChunk SpecEscape EscapeFacts EscapeRun ReadProps KeepFacts ReadPieces SpecConv ConvFacts ReadMore
  SpecWrite WriteFacts WriteProps Strings StringFacts EdgeFacts Copy CopyProps ExactProps StdIo SpecStd CutProps StdProps SizeProps SpecCat Lines SpecLine LineProps LineIo StdBuf SpecBuf BufProps Duplex SpecDuplex DuplexProps DuplexBuf SpecDuplexBuf DuplexBufProps Serve SpecServe.
Import ListNotations.
Local Open Scope N_scope.
Arguments N.add : simpl never.
Arguments N.leb : simpl never.
Arguments N.ltb : simpl never.
Arguments N.eqb : simpl never.
Local Opaque pipeline.

Lemma serve_talk : forall fuel m f b ls e b', serve fuel m f b = Some (ls, e, b') ->
  exists rs, btalk fuel b (dialogue f ls e) = Some (rs, b') /\ dialogue_results ls e rs.
Proof.
  intros fuel m f. induction m as [|m IH]; intros b ls e b' H; [discriminate|]. cbn [serve] in H. destruct (dbuf_until fuel b) as [[[l k] b1]|] eqn:EU; [|discriminate].
  destruct k.
  - destruct l as [|x l].
    + injection H as <- <- <-. exists [BGot [] true]. cbn [dialogue flat_map app btalk]. rewrite EU. now repeat split.
    + destruct (do_dop (dover b1) _) as [r d] eqn:ED. assert (ER : exists w, r = DWrote w).
      { rewrite do_dop_out in ED by discriminate. destruct (do_op (dout (dover b1)) _) as [w o]. injection ED as <- _. eauto. }
      destruct ER as [[w|] ->].
      { injection H as <- <- <-. eexists. cbn [dialogue flat_map app btalk]. rewrite EU, ED. split; [reflexivity|]. split; [reflexivity|]. now exists [], (x :: l), w. }
      destruct (serve fuel m f _) as [[[ls' e'] b3]|] eqn:ES; [|discriminate]. injection H as <- <- <-. destruct (IH _ _ _ _ ES) as (rs & T & G).
      exists (BGot (x :: l) true :: BWrote (DWrote None) :: rs). unfold dialogue in *. cbn [flat_map app btalk]. rewrite EU, ED, T. split; [reflexivity|].
      unfold dialogue_results in *. cbn [got wrote flat_map app map]. fold (got rs) (wrote rs). destruct e'.
      * destruct G as [-> ->]. now split.
      * destruct G as [[z ->] ->]. split; [now exists z|reflexivity].
      * destruct G as [-> (before & la & err & -> & ->)]. split; [reflexivity|]. now exists ((x :: l) :: before), la, err.
  - assert (H' : Some ([], ReadFailed, b1) = Some (ls, e, b')) by (destruct l; exact H). injection H' as <- <- <-. exists [BGot l false]. cbn [dialogue flat_map app btalk]. rewrite EU. split; [reflexivity|]. split; [now exists l|reflexivity].
Qed.
Lemma dialogue_text : forall f ls e, btext (dialogue f ls e) = concat (map f ls).
Proof.
  intros f ls e. unfold btext, dialogue. assert (T : bouts match e with WriteFailed => [] | _ => [BLine] end = []) by now destruct e. unfold bouts in *. rewrite flat_map_app, T, app_nil_r. clear.
  induction ls as [|l ls IH]; [reflexivity|]. cbn [flat_map app map concat op_text]. now rewrite IH.
Qed.
Lemma complete_plain : forall s, complete_lines s -> plain_op (OpWriteText s).
Proof. intros s ((S & _) & u & E). split; [subst s; destruct u; discriminate|now apply substr_spec]. Qed.
Lemma dialogue_plain : forall f ls e, (forall l, complete_lines (f l)) -> Forall plain_bop (dialogue f ls e) /\ Forall line_op (bouts (dialogue f ls e)).
Proof.
  intros f ls e A. unfold dialogue, bouts. rewrite flat_map_app. split; apply Forall_app; split.
  - induction ls as [|l ls IH]; cbn [flat_map app]; [apply Forall_nil|]. apply Forall_cons; [exact I|]. apply Forall_cons; [|exact IH]. split; [now apply complete_plain|discriminate].
  - destruct e; try apply Forall_nil; apply Forall_cons; try exact I; apply Forall_nil.
  - induction ls as [|l ls IH]; cbn [flat_map app]; [apply Forall_nil|]. apply Forall_cons; [|exact IH]. intros _. apply A.
  - destruct e; apply Forall_nil.
Qed.
(** Whatever happens, and however it ends *)
Theorem serve_closed : forall nel lsps cr p o script cap fuel m f ls e b w, (forall l, complete_lines (f l)) ->
  serve fuel m f (new_dbuf (new_duplexer nel lsps cr false (mksink p o false) script) cap) = Some (ls, e, b) -> close (dout (dover b)) = (None, w) ->
  emitted (inner w) = p ++ as_sent cr (concat (map f ls)).
Proof.
  intros nel lsps cr p o script cap fuel m f ls e b w A H C. destruct (serve_talk _ _ _ _ _ _ _ H) as (rs & T & _). destruct (dialogue_plain f ls e A) as [P L].
  destruct (conversation_written _ _ _ _ _ _ _ _ _ _ _ _ T P L C) as (_ & _ & E). now rewrite dialogue_text in E.
Qed.
(** * Without failures *)
(** Nothing has failed, [t] has been written, and it ends with a line end. *)
Definition going (cr : bool) (p t : list N) (d : duplexer) : Prop :=
  wf (din d) /\ exists x, refines cr x (dout d) /\ failed x = false /\ outcomes x = [] /\ line_terminated (text x) /\ sent x = p ++ as_sent cr t.
Lemma going_reads : forall n c cr p t d, going cr p t d -> going cr p t (snd (do_dops d (repeat (DRead c) n))).
Proof.
  induction n as [|n IH]; intros c cr p t d G; [exact G|]. cbn [repeat do_dops]. destruct (do_dop d (DRead c)) as [r d1] eqn:E1. specialize (IH c cr p t d1).
  destruct (do_dops d1 (repeat (DRead c) n)) as [rs d2]. cbn [snd] in *. apply IH. destruct G as (W & x & R & F & O & L & S).
  destruct (dop_refines _ _ _ (DRead c) _ _ W R I E1) as (_ & R1 & W1). split; [exact W1|]. eexists. split; [exact R1|]. cbn [spec_side]. destruct (line_read r); [|auto].
  cbn [failed outcomes text sent]. split; [exact F|]. split; [exact O|]. split; [now left|exact S].
Qed.
Lemma going_write : forall cr p t d a r d', going cr p t d -> complete_lines a -> do_dop d (DOut (OpWriteText a)) = (r, d') -> r = DWrote None /\ going cr p (t ++ a) d'.
Proof.
  intros cr p t d a r d' (W & x & R & F & O & L & S) A H. assert (P : plain_dop (DOut (OpWriteText a))) by (split; [now apply complete_plain|discriminate]).
  destruct (dop_refines _ _ _ _ _ _ W R P H) as (SR & R1 & W1). destruct A as ((_ & ST & _) & u & EA). cbn [spec_side] in R1. destruct r as [y cs|e|]; [destruct SR| |destruct SR]. cbn [spec_result] in SR.
  assert (E : spec_op cr x (OpWriteText a) = (true, mkdoc (text x ++ a) (sent x ++ as_sent cr a) false false [])).
  { cbn [spec_op]. unfold spec_write_text, spec_send. rewrite F, O. assert (K : opt_all is_basic_text_start (head_opt a) = true).
    { destruct a as [|c a]; [reflexivity|]. exact (ST c a eq_refl). }
    rewrite K, andb_false_r. reflexivity. }
  rewrite E in SR, R1. cbn [fst snd] in SR, R1. destruct e; [discriminate|]. split; [reflexivity|]. split; [exact W1|]. eexists. split; [exact R1|]. cbn [failed outcomes text sent].
  split; [reflexivity|]. split; [reflexivity|]. split; [right; exists (text x ++ u); now rewrite EA, app_assoc|]. rewrite S, as_sent_app. now rewrite app_assoc.
Qed.
Lemma going_until : forall fuel b l k b' cr p t, dbuf_until fuel b = Some (l, k, b') -> going cr p t (dover b) -> going cr p t (dover b').
Proof. intros fuel b l k b' cr p t H G. destruct (until_dops _ _ _ _ _ H) as (n & E & _). rewrite <- E. now apply going_reads. Qed.
Lemma going_close : forall cr p t d, going cr p t d -> exists w, close (dout d) = (None, w) /\ emitted (inner w) = p ++ as_sent cr t.
Proof.
  intros cr p t d (_ & x & R & F & O & L & S). destruct (op_refines cr x (dout d) OpClose R I) as [RC R']. cbn [do_op spec_op] in RC, R'.
  assert (E : spec_close x = (true, mkdoc (text x) (sent x) true false [])).
  { unfold spec_close, spec_call. rewrite F, O. destruct (lt_end _ L) as [_ [->| ->]]; reflexivity. }
  rewrite E in RC, R'. cbn [fst snd] in RC, R'. destruct (close (dout d)) as [e w]. cbn [fst snd ok] in RC, R'. destruct e; [discriminate|]. exists w. split; [reflexivity|]. destruct R' as (_ & _ & _ & -> & _). exact S.
Qed.
Lemma serve_lines : forall f cr p ps be t, (forall l, complete_lines (f l)) -> Forall (fun x => ~ In LF x) ps -> BufProps.holds be (lines_of ps) [] ->
  exists n, forall b, proj b = be -> going cr p t (dover b) -> forall fuel m, (n <= fuel)%nat -> (n <= m)%nat ->
    exists b', serve fuel m f b = Some (map (fun x => x ++ [LF]) ps, ServedAll, b') /\ going cr p (t ++ concat (map (fun x => f (x ++ [LF])) ps)) (dover b').
Proof.
  intros f cr p ps be t A F. revert be t. induction F as [|x ps NX F IH]; intros be t H.
  - destruct (until_rest be [] [] H ltac:(intros [])) as (n & b1 & _ & K). exists (S n). intros b <- G fuel [|m] L1 L2; [lia|]. specialize (K fuel ltac:(lia)). rewrite until_proj in K. cbn [serve].
    destruct (dbuf_until fuel b) as [[[l k] b2]|] eqn:EU; [|discriminate]. injection K as -> -> _. exists b2. split; [reflexivity|]. cbn [map concat]. rewrite app_nil_r. exact (going_until _ _ _ _ _ _ _ _ EU G).
  - unfold lines_of in H. cbn [map concat] in H. rewrite <- app_assoc in H. cbn [app] in H. change 0xA with LF in H. destruct (until_line be x _ [] H NX) as (n & b1 & H1 & K).
    destruct (IH b1 (t ++ f (x ++ [LF])) H1) as (n2 & K2). exists (S (n + n2)). intros b <- G fuel [|m] L1 L2; [lia|]. specialize (K fuel ltac:(lia)). rewrite until_proj in K. cbn [serve].
    destruct (dbuf_until fuel b) as [[[l k] b2]|] eqn:EU; [|discriminate]. injection K as -> -> E2. pose proof (going_until _ _ _ _ _ _ _ _ EU G) as G2.
    destruct (do_dop (dover b2) (DOut (OpWriteText (f (x ++ [LF]))))) as [r d] eqn:ED. destruct (going_write _ _ _ _ _ _ _ G2 (A _) ED) as [-> G3].
    destruct (K2 (mkdbuf d (dcap b2) (dunread b2)) ltac:(rewrite (out_proj b2 (OpWriteText (f (x ++ [LF]))) _ d ltac:(discriminate) ED); exact E2) G3 fuel m ltac:(lia) ltac:(lia)) as (b' & E & G4). exists b'.
    assert (NE : exists y z, x ++ [LF] = y :: z) by (destruct x as [|y z]; [now exists LF, []|now exists y, (z ++ [LF])]). destruct NE as (y & z & NE). cbn [map concat].
    split; [|rewrite app_assoc; exact G4]. rewrite NE in *. cbv beta iota. rewrite E. reflexivity.
Qed.
Theorem serve_all : forall nel lsps cr p script cap f ps, (136 <= cap)%nat -> no_fail script -> Forall (fun x => ~ In 0xA x) ps -> gives nel lsps script (concat (map (fun x => x ++ [0xA]) ps)) -> (forall l, complete_lines (f l)) ->
  exists n, forall fuel m, (n <= fuel)%nat -> (n <= m)%nat -> exists b w, serve fuel m f (new_dbuf (new_duplexer nel lsps cr false (mksink p [] false) script) cap) = Some (map (fun x => encode_all x ++ [0xA]) ps, ServedAll, b) /\
    close (dout (dover b)) = (None, w) /\ emitted (inner w) = p ++ as_sent cr (concat (map (fun x => f (encode_all x ++ [0xA])) ps)).
Proof.
  intros nel lsps cr p script cap f ps C NF FP (sizes & xs & j & rest & R & RE & D) A.
  destruct (runs_exist cap _ (new_input nel lsps) script [] C (le_n _) (wf_new _ _) (new_ainv _ _)) as (q & rs' & j' & sc' & RU & R' & RE').
  rewrite (segments_received _ _ _ _ _ _ (wf_new _ _) NF R') in RU by (apply Forall_forall; intros x X; apply repeat_spec in X; subst x; exact C).
  destruct (sizes_do_not_matter_received _ _ _ _ _ _ _ _ _ _ _ R R' NF RE) as [_ EQ]. specialize (EQ RE'). rewrite <- (received_delivered _ _ _ _ _ _ (wf_new _ _) NF R) in D. rewrite <- EQ, D in RU.
  fold (lines_of ps) in RU.
  destruct (serve_lines f cr p (map encode_all ps) (new_bufreader nel lsps script cap) [] A) as (n & K).
  - apply Forall_forall. intros y Y. apply in_map_iff in Y. destruct Y as (x & <- & Y). intro Z. apply LF_encode_all in Z. rewrite Forall_forall in FP. exact (FP x Y Z).
  - exists (lines_of ps). split; [exact RU|]. cbn [unread new_bufreader app]. symmetry. apply encode_lines.
  - exists n. intros fuel m L1 L2. destruct (K (new_dbuf (new_duplexer nel lsps cr false (mksink p [] false) script) cap) eq_refl) with (fuel := fuel) (m := m) as (b & E & G); [|exact L1|exact L2|].
    + split; [apply wf_new|]. exists (new_doc p []). split; [apply new_refines|]. split; [reflexivity|]. split; [reflexivity|]. split; [now left|]. destruct cr; symmetry; apply app_nil_r.
    + destruct (going_close _ _ _ _ G) as (w & CW & EW). exists b, w. rewrite E, !map_map in *. cbn [app] in EW. split; [reflexivity|]. split; [exact CW|exact EW].
Qed.
