(** A conversation with a BufReader over a TextDuplexer. *)
From Coq Require Import NArith Arith List Bool Lia ZifyBool ZifyNat ZifyN.
From Verif Require Import Base Ucd UcdTables Norm Chars TextTables TextUtils UcdFacts NormFacts CharFacts DocTable SpecText TextFacts PipelineFacts DocFacts IsoFacts
  Utf8 Utf8Facts Input Output ReadFacts ReadInv ReadSession SpecRead ScalarFacts ReadChunk SpecEscape EscapeFacts EscapeRun ReadProps KeepFacts ReadPieces SpecConv ConvFacts ReadMore
  SpecWrite WriteFacts WriteProps Strings StringFacts EdgeFacts Copy CopyProps ExactProps StdIo SpecStd CutProps StdProps SizeProps SpecCat Lines SpecLine LineProps LineIo StdBuf SpecBuf BufProps Duplex SpecDuplex DuplexProps DuplexBuf SpecDuplexBuf.
Import ListNotations.
Local Open Scope N_scope.
Arguments N.add : simpl never.
Arguments N.leb : simpl never.
Arguments N.ltb : simpl never.
Arguments N.eqb : simpl never.
Local Opaque pipeline.

(** * What is read *)
Definition proj (b : dbuf) : bufreader := mkbuf (din (dover b)) (dscript (dover b)) (dcap b) (dunread b).
Lemma fill_proj : forall b, fill_buf (proj b) = (fst (dbuf_fill b), proj (snd (dbuf_fill b))).
Proof.
  intros [[i w sc] c [|x u]]; [|reflexivity]. unfold fill_buf, dbuf_fill, direct, duplex_read, proj. cbn [dunread dover dcap unread under stream capacity din dscript dout].
  destruct (read i sc c) as [[[r cs] j] sc']. destruct (std_result false r); reflexivity.
Qed.
Lemma until_proj : forall fuel b, buf_until fuel (proj b) = match dbuf_until fuel b with Some (l, ok, b') => Some (l, ok, proj b') | None => None end.
Proof.
  induction fuel as [|f IH]; intro b; [reflexivity|]. cbn [buf_until dbuf_until]. rewrite fill_proj. destruct (dbuf_fill b) as [[[|x bs]| |] b']; cbn [fst snd]; try reflexivity; [|apply IH].
  destruct (until_lf (x :: bs)) as [l r]. destruct (ends_with LF l); [reflexivity|]. change (consume (length l) (proj b')) with (proj (dbuf_consume (length l) b')). rewrite IH.
  destruct (dbuf_until f _) as [[[more k] e]|]; reflexivity.
Qed.
Lemma out_proj : forall b o r d, o <> OpAbandon -> do_dop (dover b) (DOut o) = (r, d) -> proj (mkdbuf d (dcap b) (dunread b)) = proj b.
Proof. intros b o r d N H. rewrite do_dop_out in H by exact N. destruct (do_op (dout (dover b)) o) as [e w]. injection H as <- <-. reflexivity. Qed.
Lemma talk_none : forall os fuel b, Forall (fun o => o <> BOut OpAbandon) os -> asked os = 0%nat -> exists rs b', btalk fuel b os = Some (rs, b') /\ got rs = [].
Proof.
  induction os as [|[|o] os IH]; intros fuel b F A; [exists [], b; now split|discriminate|]. inversion F as [|? ? F1 F2]; subst. cbn [btalk]. destruct (do_dop (dover b) (DOut o)) as [r d].
  destruct (IH fuel (mkdbuf d (dcap b) (dunread b)) F2 A) as (rs & b' & E & G). rewrite E. do 2 eexists. split; [reflexivity|exact G].
Qed.
Lemma talk_lines : forall os be ps, Forall (fun o => o <> BOut OpAbandon) os -> Forall (fun p => ~ In LF p) ps -> BufProps.holds be (lines_of ps) [] -> (asked os <= S (length ps))%nat ->
  exists n, forall b, proj b = be -> forall fuel, (n <= fuel)%nat -> exists rs b', btalk fuel b os = Some (rs, b') /\ got rs = firstn (asked os) (map (fun p => (p ++ [LF], true)) ps ++ [([], true)]).
Proof.
  induction os as [|[|o] os IH]; intros be ps FA FP H L.
  - exists O. intros b _ fuel _. exists [], b. now split.
  - inversion FA as [|? ? _ FA2]; subst. cbn [asked] in *. destruct FP as [|p ps NP FP].
    + destruct (until_rest be [] [] H ltac:(intros [])) as (n & b1 & _ & K). exists n. intros b <- fuel LE. specialize (K fuel LE). rewrite until_proj in K. cbn [btalk].
      destruct (dbuf_until fuel b) as [[[l k] b2]|]; [|discriminate]. injection K as -> -> _. cbn [length] in L. destruct (talk_none os fuel b2 FA2 ltac:(lia)) as (rs & b' & E & G). rewrite E.
      do 2 eexists. split; [reflexivity|]. cbn [got flat_map app map firstn]. fold (got rs). rewrite G. now rewrite firstn_nil.
    + unfold lines_of in H. cbn [map concat] in H. rewrite <- app_assoc in H. cbn [app] in H. change 0xA with LF in H. destruct (until_line be p _ [] H NP) as (n & b1 & H1 & K).
      destruct (IH b1 ps FA2 FP H1 ltac:(cbn [length] in L; lia)) as (n2 & K2). exists (n + n2)%nat. intros b <- fuel LE. specialize (K fuel ltac:(lia)). rewrite until_proj in K. cbn [btalk].
      destruct (dbuf_until fuel b) as [[[l k] b2]|]; [|discriminate]. injection K as -> -> E2. destruct (K2 b2 E2 fuel ltac:(lia)) as (rs & b' & E & G). rewrite E.
      do 2 eexists. split; [reflexivity|]. cbn [got flat_map app map firstn]. fold (got rs). now rewrite G.
  - inversion FA as [|? ? FA1 FA2]; subst. cbn [asked] in *. destruct (IH be ps FA2 FP H L) as (n & K). exists n. intros b PB fuel LE. cbn [btalk]. destruct (do_dop (dover b) (DOut o)) as [r d] eqn:ED.
    destruct (K (mkdbuf d (dcap b) (dunread b)) ltac:(rewrite (out_proj b o r d ltac:(congruence) ED); exact PB) fuel LE) as (rs & b' & E & G). rewrite E. do 2 eexists. split; [reflexivity|exact G].
Qed.
Lemma LF_encode_all : forall s, In LF (encode_all s) -> In LF s.
Proof.
  intros s H. unfold encode_all in H. apply in_flat_map in H. destruct H as (c & I1 & K). replace LF with c; [exact I1|]. unfold encode in K. change LF with 10 in *.
  destruct (c <? 0x80); [now destruct K as [K|[]]|]. exfalso. destruct (c <? 0x800); [|destruct (c <? 0x10000)]; cbn [In] in K; repeat (destruct K as [K|K]; [lia|]); destruct K.
Qed.
Lemma encode_lines : forall ps, encode_all (lines_of ps) = lines_of (map encode_all ps).
Proof. induction ps as [|p ps IH]; [reflexivity|]. unfold lines_of in *. cbn [map concat]. now rewrite encode_all_app, IH, encode_snoc_LF. Qed.
(** The lines of the peer, whatever is written in between. *)
Theorem conversation_lines : forall nel lsps cr an k script cap ps os, (136 <= cap)%nat -> no_fail script -> Forall (fun p => ~ In 0xA p) ps -> gives nel lsps script (concat (map (fun p => p ++ [0xA]) ps)) ->
  Forall (fun o => o <> BOut OpAbandon) os -> (asked os <= S (length ps))%nat ->
  exists n, forall fuel, (n <= fuel)%nat -> exists rs b, btalk fuel (new_dbuf (new_duplexer nel lsps cr an k script) cap) os = Some (rs, b) /\
    got rs = firstn (asked os) (map (fun p => (encode_all p ++ [0xA], true)) ps ++ [([], true)]).
Proof.
  intros nel lsps cr an k script cap ps os C NF FP (sizes & xs & j & rest & R & RE & D) FA L.
  destruct (runs_exist cap _ (new_input nel lsps) script [] C (le_n _) (wf_new _ _) (new_ainv _ _)) as (m & rs' & j' & sc' & RU & R' & RE').
  rewrite (segments_received _ _ _ _ _ _ (wf_new _ _) NF R') in RU by (apply Forall_forall; intros x X; apply repeat_spec in X; subst x; exact C).
  destruct (sizes_do_not_matter_received _ _ _ _ _ _ _ _ _ _ _ R R' NF RE) as [_ EQ]. specialize (EQ RE'). rewrite <- (received_delivered _ _ _ _ _ _ (wf_new _ _) NF R) in D. rewrite <- EQ, D in RU.
  fold (lines_of ps) in RU.
  destruct (talk_lines os (new_bufreader nel lsps script cap) (map encode_all ps) FA) as (n & K).
  - apply Forall_forall. intros y Y. apply in_map_iff in Y. destruct Y as (p & <- & Y). intro Z. apply LF_encode_all in Z. rewrite Forall_forall in FP. exact (FP p Y Z).
  - exists (lines_of ps). split; [exact RU|]. cbn [unread new_bufreader app]. symmetry. apply encode_lines.
  - now rewrite map_length.
  - exists n. intros fuel LE. destruct (K (new_dbuf (new_duplexer nel lsps cr an k script) cap) eq_refl fuel LE) as (rs & b & E & G). exists rs, b. split; [exact E|]. rewrite G, map_map. reflexivity.
Qed.

(** * What is written *)
Lemma dops_app : forall a b d, do_dops d (a ++ b) = (fst (do_dops d a) ++ fst (do_dops (snd (do_dops d a)) b), snd (do_dops (snd (do_dops d a)) b)).
Proof.
  induction a as [|o a IH]; intros b d; [cbn; now destruct (do_dops d b)|]. cbn [app do_dops]. destruct (do_dop d o) as [r d1]. rewrite IH. destruct (do_dops d1 a) as [rs d2]. reflexivity.
Qed.
Lemma fill_dops : forall b, exists n, snd (do_dops (dover b) (repeat (DRead (dcap b)) n)) = dover (snd (dbuf_fill b)) /\ dcap (snd (dbuf_fill b)) = dcap b.
Proof.
  intros [d c [|x u]]; [|exists O; split; reflexivity]. exists 1%nat. unfold dbuf_fill. cbn [dunread dover dcap repeat do_dops do_dop]. destruct (duplex_read d c) as [[r cs] d']. destruct (std_result false r); split; reflexivity.
Qed.
Lemma until_dops : forall fuel b l k b', dbuf_until fuel b = Some (l, k, b') -> exists n, snd (do_dops (dover b) (repeat (DRead (dcap b)) n)) = dover b' /\ dcap b' = dcap b.
Proof.
  induction fuel as [|f IH]; intros b l k b' H; [discriminate|]. cbn [dbuf_until] in H. destruct (fill_dops b) as (n & E & EC). destruct (dbuf_fill b) as [[[|x bs]| |] b1]; cbn [fst snd] in *.
  - injection H as <- <- <-. eauto.
  - destruct (until_lf (x :: bs)) as [l1 r]. destruct (ends_with LF l1); [injection H as <- <- <-; exists n; split; [exact E|exact EC]|].
    destruct (dbuf_until f (dbuf_consume (length l1) b1)) as [[[more k1] e]|] eqn:EU; [|discriminate]. injection H as <- <- <-. destruct (IH _ _ _ _ EU) as (n2 & E2 & EC2). cbn [dbuf_consume dover dcap] in E2, EC2.
    exists (n + n2)%nat. rewrite repeat_app, dops_app. cbn [snd]. rewrite E, <- EC. split; [exact E2|exact EC2].
  - destruct (IH _ _ _ _ H) as (n2 & E2 & EC2). exists (n + n2)%nat. rewrite repeat_app, dops_app. cbn [snd]. rewrite E, <- EC. split; [exact E2|exact EC2].
  - injection H as <- <- <-. eauto.
Qed.
Lemma reads_results : forall n c d, Forall (fun r => exists x cs, r = DGot x cs) (fst (do_dops d (repeat (DRead c) n))).
Proof.
  induction n as [|n IH]; intros c d; [constructor|]. cbn [repeat do_dops do_dop]. destruct (duplex_read d c) as [[r cs] d']. specialize (IH c d'). destruct (do_dops d' (repeat (DRead c) n)) as [rs d2]. constructor; [eauto|exact IH].
Qed.
Lemma outs_reads : forall n c, outs (repeat (DRead c) n) = []. Proof. induction n as [|n IH]; intro c; [reflexivity|exact (IH c)]. Qed.
Lemma outs_app : forall a b, outs (a ++ b) = outs a ++ outs b. Proof. intros. unfold outs. apply flat_map_app. Qed.
(** A conversation is a history of the duplexer with the same writes; the reads come where
    the BufReader makes them. *)
Theorem talk_history : forall fuel os b rs b', btalk fuel b os = Some (rs, b') ->
  exists ds rs', do_dops (dover b) ds = (rs', dover b') /\ outs ds = bouts os /\ Forall (fun o => forall c, o = DRead c -> c = dcap b) ds /\ writes rs' = wrote rs.
Proof.
  intros fuel. induction os as [|[|o] os IH]; intros b rs b' H; cbn [btalk] in H.
  - injection H as <- <-. exists [], []. repeat split. constructor.
  - destruct (dbuf_until fuel b) as [[[l k] b1]|] eqn:EU; [|discriminate]. destruct (btalk fuel b1 os) as [[rs1 b2]|] eqn:ET; [|discriminate]. injection H as <- <-.
    destruct (until_dops _ _ _ _ _ EU) as (n & E & EC). destruct (IH _ _ _ ET) as (ds & rs' & D & O & F & W). pose proof (reads_results n (dcap b) (dover b)) as RR.
    exists (repeat (DRead (dcap b)) n ++ ds). eexists. split; [rewrite dops_app, E, D; reflexivity|]. split; [now rewrite outs_app, outs_reads|]. split.
    + apply Forall_app. split; [|rewrite <- EC; exact F]. apply Forall_forall. intros y Y. apply repeat_spec in Y. subst y. intros c K. now injection K.
    + cbn [fst]. unfold writes in *. rewrite filter_app, W. cbn [wrote flat_map app]. replace (filter _ (fst _)) with (@nil dresult); [reflexivity|].
      clear - RR. induction RR as [|y l (x & cs & ->) _ IHl]; [reflexivity|exact IHl].
  - destruct (do_dop (dover b) (DOut o)) as [r d] eqn:ED. destruct (btalk fuel (mkdbuf d (dcap b) (dunread b)) os) as [[rs1 b2]|] eqn:ET; [|discriminate]. injection H as <- <-.
    destruct (IH _ _ _ ET) as (ds & rs' & D & O & F & W). cbn [dover dcap] in *. exists (DOut o :: ds), (r :: rs'). cbn [do_dops]. rewrite ED, D. split; [reflexivity|]. split; [cbn; fold (outs ds); now rewrite O|].
    split; [constructor; [discriminate|exact F]|]. assert (NG : forall x cs, r <> DGot x cs).
    { intros x cs ->. cbn [do_dop] in ED. destruct o; try (destruct (duplex_abandon (dover b)); discriminate); destruct (do_op (dout (dover b)) _); discriminate. }
    cbn [writes filter wrote flat_map app]. fold (writes rs') (wrote rs1). rewrite W. destruct r as [x cs|e|]; [exfalso; now apply (NG x cs)|reflexivity|reflexivity].
Qed.
(** If lines are written and closing succeeds, they are all sent, as one valid text. *)
Theorem conversation_written : forall nel lsps cr p o script cap fuel os rs b w, btalk fuel (new_dbuf (new_duplexer nel lsps cr false (mksink p o false) script) cap) os = Some (rs, b) ->
  Forall plain_bop os -> Forall line_op (bouts os) -> close (dout (dover b)) = (None, w) ->
  string_ok (btext os) /\ line_terminated (btext os) /\ emitted (inner w) = p ++ as_sent cr (btext os).
Proof.
  intros nel lsps cr p o script cap fuel os rs b w H P L HC. destruct (talk_history _ _ _ _ _ H) as (ds & rs' & D & O & _ & _). cbn [new_dbuf dover] in D.
  assert (PD : Forall plain_dop ds).
  { apply Forall_forall. intros [c|q] Y; [exact I|]. cbn [plain_dop]. assert (IN : In q (bouts os)) by (rewrite <- O; unfold outs; apply in_flat_map; exists (DOut q); split; [exact Y|now left]).
    unfold bouts in IN. apply in_flat_map in IN. destruct IN as ([|q'] & IN & Z); [destruct Z|]. destruct Z as [->|[]]. rewrite Forall_forall in P. exact (P _ IN). }
  assert (TX : written ds = btext os) by (rewrite <- outs_text, O; reflexivity). rewrite <- TX. rewrite <- O in L. exact (duplex_closed_lines _ _ _ _ _ _ _ _ _ _ D PD L HC).
Qed.

(** * Closing after a line *)
Lemma encode_last_LF : forall cs, last_opt (encode_all cs) = Some LF -> last_opt cs = Some LF.
Proof.
  intros cs H. destruct cs as [|c u] using rev_ind; [discriminate|]. clear IHu. rewrite last_opt_snoc. rewrite encode_all_app in H. f_equal.
  assert (K : In LF (encode_all [c])).
  { assert (NE : encode_all [c] <> []) by (cbn; rewrite app_nil_r; unfold encode; destruct (c <? _); [|destruct (c <? _); [|destruct (c <? _)]]; discriminate).
    destruct (exists_last NE) as (v & y & E). rewrite E in *. rewrite app_assoc, last_opt_snoc in H. injection H as ->. apply in_or_app. right. now left. }
  apply LF_encode_all in K. now destruct K as [K|[]].
Qed.
Lemma ends_app : forall c a m, m <> [] -> ends_with c (a ++ m) = ends_with c m.
Proof. intros c a m N. destruct (exists_last N) as (v & z & ->). unfold ends_with. now rewrite app_assoc, !last_opt_snoc. Qed.
Lemma until_last_empty : forall fuel b l b', dbuf_until fuel b = Some (l, true, b') -> dunread b = [] -> dunread b' = [] \/ ends_with LF (dunread b') = true -> ends_with LF l = true ->
  exists n rs0 r, do_dops (dover b) (repeat (DRead (dcap b)) n ++ [DRead (dcap b)]) = (rs0 ++ [r], dover b') /\ line_read r = true.
Proof.
  induction fuel as [|f IH]; intros b l b' H U U' EL; [discriminate|]. cbn [dbuf_until] in H. unfold dbuf_fill in H. rewrite U in H.
  destruct (duplex_read (dover b) (dcap b)) as [[r cs] d] eqn:ER.
  assert (NEXT : forall l2 u, dbuf_until f (mkdbuf d (dcap b) u) = Some (l2, true, b') -> u = [] -> ends_with LF l2 = true -> exists n rs0 r, do_dops (dover b) (repeat (DRead (dcap b)) n ++ [DRead (dcap b)]) = (rs0 ++ [r], dover b') /\ line_read r = true).
  { intros l2 u EU -> EL2. destruct (IH _ _ _ EU eq_refl U' EL2) as (n & rs0 & r0 & D & LR). cbn [dover dcap] in D. exists (S n), (DGot r cs :: rs0), r0. split; [|exact LR]. cbn [repeat app do_dops do_dop]. rewrite ER, D. reflexivity. }
  destruct (std_result false r) as [m| |] eqn:ES; [|now apply (NEXT l [])|discriminate].
  destruct (encode_all cs) as [|x bs] eqn:EE; [injection H as <- _; discriminate|]. destruct (until_lf_cases (x :: bs)) as [[N1 E1]|(p & t & E0 & N1 & E1)]; rewrite E1 in H.
  - rewrite not_ends in H by exact N1. destruct (dbuf_until f _) as [[[more k] e]|] eqn:EU; [|discriminate]. injection H as <- -> ->. unfold dbuf_consume in EU. cbn [dover dcap dunread] in EU.
    apply (NEXT more _ EU); [apply skipn_all|]. destruct more as [|y more]; [rewrite app_nil_r, not_ends in EL by exact N1; discriminate|].
    change (x :: bs ++ y :: more) with ((x :: bs) ++ y :: more) in EL. rewrite ends_app in EL by discriminate. exact EL.
  - rewrite LineProps.ends_snoc in H. injection H as <- <-. cbn [dbuf_consume dunread] in U'. rewrite E0 in U'. replace (p ++ LF :: t) with ((p ++ [LF]) ++ t) in U', E0 by now rewrite <- app_assoc.
    rewrite skipn_app, skipn_all, Nat.sub_diag in U'. cbn in U'. exists O, [], (DGot r cs). cbn [repeat app do_dops do_dop dbuf_consume dover]. rewrite ER. split; [reflexivity|].
    assert (LC : last_opt cs = Some LF).
    { apply encode_last_LF. rewrite EE, E0. destruct U' as [->|U']; [rewrite app_nil_r; apply last_opt_snoc|]. destruct t as [|y t] using rev_ind; [discriminate|]. unfold ends_with in U'. rewrite app_assoc, last_opt_snoc in *. apply N.eqb_eq in U'. now rewrite U'. }
    cbn [line_read]. rewrite LC. destruct r as [k s| |]; [reflexivity|discriminate|discriminate].
Qed.
Lemma until_last : forall fuel b l b', dbuf_until fuel b = Some (l, true, b') -> ~ In LF (dunread b) -> dunread b' = [] \/ ends_with LF (dunread b') = true -> ends_with LF l = true ->
  exists n rs0 r, do_dops (dover b) (repeat (DRead (dcap b)) n ++ [DRead (dcap b)]) = (rs0 ++ [r], dover b') /\ line_read r = true.
Proof.
  intros [|f] b l b' H U U' EL; [discriminate|]. destruct (dunread b) as [|x bs] eqn:EB; [exact (until_last_empty _ _ _ _ H EB U' EL)|].
  cbn [dbuf_until] in H. unfold dbuf_fill in H. rewrite EB in H. rewrite until_lf_rest, not_ends in H by exact U. destruct (dbuf_until f _) as [[[more k] e]|] eqn:EU; [|discriminate]. injection H as <- -> ->.
  destruct (until_last_empty _ _ _ _ EU) as (n & rs0 & r & D & LR).
  - unfold dbuf_consume. cbn [dunread]. rewrite EB. apply skipn_all.
  - exact U'.
  - destruct more as [|y more]; [rewrite app_nil_r, not_ends in EL by exact U; discriminate|]. change (x :: bs ++ y :: more) with ((x :: bs) ++ y :: more) in EL. rewrite ends_app in EL by discriminate. exact EL.
  - exists n, rs0, r. now split.
Qed.
Lemma reads_plain : forall n c, Forall plain_dop (repeat (DRead c) n).
Proof. intros n c. apply Forall_forall. intros y Y. apply repeat_spec in Y. now subst y. Qed.
Lemma written_app : forall a b, written (a ++ b) = written a ++ written b. Proof. intros. unfold written. now rewrite map_app, concat_app. Qed.
Lemma written_reads : forall n c, written (repeat (DRead c) n) = []. Proof. induction n as [|n IH]; intro c; [reflexivity|exact (IH c)]. Qed.
Theorem conversation_close : forall nel lsps cr p script cap fuel os rs b1 l b2, btalk fuel (new_dbuf (new_duplexer nel lsps cr false (mksink p [] false) script) cap) os = Some (rs, b1) ->
  Forall plain_bop os -> Forall (fun r => match r with DWrote (Some _) => False | _ => True end) (wrote rs) ->
  ~ In 0xA (dunread b1) -> dbuf_until fuel b1 = Some (l ++ [0xA], true, b2) -> dunread b2 = [] \/ (exists m, dunread b2 = m ++ [0xA]) ->
  exists w, close (dout (dover b2)) = (None, w) /\ emitted (inner w) = p ++ as_sent cr (btext os).
Proof.
  intros nel lsps cr p script cap fuel os rs b1 l b2 H P A U EU U2. destruct (talk_history _ _ _ _ _ H) as (ds & rs' & D & O & _ & W). cbn [new_dbuf dover] in D.
  assert (U3 : dunread b2 = [] \/ ends_with LF (dunread b2) = true) by (destruct U2 as [K|(m & ->)]; [now left|right; apply LineProps.ends_snoc]).
  destruct (until_last _ _ _ _ EU U U3 (LineProps.ends_snoc l LF)) as (n & rs0 & r & D2 & LR).
  assert (PD : Forall plain_dop ds).
  { apply Forall_forall. intros [c|q] Y; [exact I|]. cbn [plain_dop]. assert (IN : In q (bouts os)) by (rewrite <- O; unfold outs; apply in_flat_map; exists (DOut q); split; [exact Y|now left]).
    unfold bouts in IN. apply in_flat_map in IN. destruct IN as ([|q'] & IN & Z); [destruct Z|]. destruct Z as [->|[]]. rewrite Forall_forall in P. exact (P _ IN). }
  assert (TX : written (ds ++ repeat (DRead (dcap b1)) n) = btext os) by (rewrite written_app, written_reads, app_nil_r, <- outs_text, O; reflexivity).
  rewrite <- TX. apply (duplex_close_after_line nel lsps cr p script (ds ++ repeat (DRead (dcap b1)) n) (dcap b1) (rs' ++ rs0) r).
  - rewrite <- app_assoc, dops_app, D. cbn [fst snd]. rewrite D2. cbn [fst snd]. now rewrite app_assoc.
  - apply Forall_app. split; [exact PD|apply reads_plain].
  - apply Forall_app. split.
    + apply Forall_forall. intros y Y. destruct y as [x cs|[e|]|]; try exact I. rewrite <- W in A. rewrite Forall_forall in A. exact (A (DWrote (Some e)) (proj2 (filter_In _ _ _) (conj Y eq_refl))).
    + pose proof (reads_results (S n) (dcap b1) (dover b1)) as RR. replace (S n) with (n + 1)%nat in RR by lia. rewrite repeat_app in RR. cbn [repeat] in RR. rewrite D2 in RR. cbn [fst] in RR. apply Forall_app in RR. destruct RR as [RR _].
      eapply Forall_impl; [|exact RR]. intros y (x & cs & ->). exact I.
  - exact LR.
Qed.

(** * With failures *)
Lemma talk_each : forall fuel os b, Forall (fun o => o <> BOut OpAbandon) os ->
  buf_each fuel (proj b) (asked os) = match btalk fuel b os with Some (rs, b') => Some (got rs, proj b') | None => None end.
Proof.
  intros fuel. induction os as [|[|o] os IH]; intros b F; [reflexivity| |]; inversion F as [|? ? F1 F2]; subst; cbn [asked btalk].
  - cbn [buf_each]. rewrite until_proj. destruct (dbuf_until fuel b) as [[[l k] b1]|]; [|reflexivity]. rewrite IH by exact F2. destruct (btalk fuel b1 os) as [[rs b2]|]; reflexivity.
  - destruct (do_dop (dover b) (DOut o)) as [r d] eqn:ED. rewrite <- (out_proj b o r d ltac:(congruence) ED), IH by exact F2. destruct (btalk fuel _ os) as [[rs b2]|]; reflexivity.
Qed.
Theorem conversation_reads : forall nel lsps cr an k script cap fuel os, Forall (fun o => o <> BOut OpAbandon) os ->
  match btalk fuel (new_dbuf (new_duplexer nel lsps cr an k script) cap) os with
  | Some (rs, b) => buf_each fuel (new_bufreader nel lsps script cap) (asked os) = Some (got rs, mkbuf (din (dover b)) (dscript (dover b)) (dcap b) (dunread b))
  | None => buf_each fuel (new_bufreader nel lsps script cap) (asked os) = None
  end.
Proof.
  intros nel lsps cr an k script cap fuel os F. pose proof (talk_each fuel os (new_dbuf (new_duplexer nel lsps cr an k script) cap) F) as K.
  change (proj (new_dbuf (new_duplexer nel lsps cr an k script) cap)) with (new_bufreader nel lsps script cap) in K. rewrite K. destruct (btalk fuel _ os) as [[rs b]|]; reflexivity.
Qed.
