(** Copying from one duplexer to another (C102). *)
From Coq Require Import NArith Arith List Bool Lia ZifyBool ZifyNat ZifyN.
From Verif Require Import Base Chars TextUtils SpecText TextFacts Utf8 Utf8Facts Input Output SpecRead ReadFacts ReadInv ReadSession ReadProps ScalarFacts SpecWrite WriteFacts WriteProps CopyProps Strings StringFacts SpecString StringProps
  Copy CopyAny Duplex SpecDuplex DuplexProps DuplexExact SpecCat StdIo StdBuf StdAdapt Sizes SizeProps StdRead SpecWhole WholeProps DuplexAll SpecStatus StatusExact DuplexCopy SpecDuplexCopy.
From Verif Require ExactBuf.
Import ListNotations.
Local Open Scope N_scope.

(** * Each side *)
Lemma touched_newline : forall w b, touched w (newline w b).
Proof. intros w [|]; [now right|now left]. Qed.
Lemma touched_trans : forall u v w, touched u v -> touched v w -> touched u w.
Proof. intros u v w [->| ->] [->| ->]; (now left) || (now right). Qed.
Lemma read_touched : forall d n r cs d', duplex_read d n = (r, cs, d') -> touched (dout d) (dout d').
Proof.
  intros d n r cs d' H. unfold duplex_read in H. destruct (read (din d) (dscript d) n) as [[[r0 c0] i] sc]. injection H as <- <- <-. cbn [dout].
  destruct r0; [apply touched_newline|now left|now left].
Qed.
Theorem copy_sides : forall intr fuel a b blen written,
  match duplex_copy intr fuel a b blen written with
  | None => copy_text intr fuel (din a) (dscript a) (dout b) blen written = None
  | Some (res, a', b') => copy_text intr fuel (din a) (dscript a) (dout b) blen written = Some (res, din a', dscript a', dout b') /\
      din b' = din b /\ dscript b' = dscript b /\ touched (dout a) (dout a')
  end.
Proof.
  intros intr. induction fuel as [|f IH]; intros a b blen written; [reflexivity|]. cbn [duplex_copy copy_text].
  destruct (duplex_read a blen) as [[r cs] a1] eqn:E. rewrite (duplex_read_reader _ _ _ _ _ E). pose proof (read_touched _ _ _ _ _ E) as T.
  assert (GO : forall b1 n1, din b1 = din b -> dscript b1 = dscript b -> match duplex_copy intr f a1 b1 blen n1 with
    | None => copy_text intr f (din a1) (dscript a1) (dout b1) blen n1 = None
    | Some (res, a', b') => copy_text intr f (din a1) (dscript a1) (dout b1) blen n1 = Some (res, din a', dscript a', dout b') /\ din b' = din b /\ dscript b' = dscript b /\ touched (dout a) (dout a') end).
  { intros b1 n1 B1 B2. specialize (IH a1 b1 blen n1). destruct (duplex_copy intr f a1 b1 blen n1) as [[[res a'] b']|]; [|exact IH].
    destruct IH as (I1 & I2 & I3 & I4). rewrite I2, I3. split; [exact I1|]. split; [exact B1|]. split; [exact B2|]. exact (touched_trans _ _ _ T I4). }
  destruct (std_result intr r) as [[|n]| |]; [auto| |apply GO; reflexivity|auto].
  unfold duplex_write_text. destruct (write_text (dout b) cs) as [[e|] w]; [auto|]. exact (GO (mkduplexer (din b) w (dscript b)) _ eq_refl eq_refl).
Qed.
Theorem copy_status_sides : forall fuel a b blen written,
  match duplex_copy_status fuel a b blen written with
  | None => copy_status fuel (din a) (dscript a) (dout b) blen written = None
  | Some (res, a', b') => copy_status fuel (din a) (dscript a) (dout b) blen written = Some (res, din a', dscript a', dout b') /\
      din b' = din b /\ dscript b' = dscript b /\ touched (dout a) (dout a')
  end.
Proof.
  induction fuel as [|f IH]; intros a b blen written; [reflexivity|]. cbn [duplex_copy_status copy_status].
  destruct (duplex_read a blen) as [[r cs] a1] eqn:E. rewrite (duplex_read_reader _ _ _ _ _ E). pose proof (read_touched _ _ _ _ _ E) as T.
  assert (GO : forall b1 n1, din b1 = din b -> dscript b1 = dscript b -> match duplex_copy_status f a1 b1 blen n1 with
    | None => copy_status f (din a1) (dscript a1) (dout b1) blen n1 = None
    | Some (res, a', b') => copy_status f (din a1) (dscript a1) (dout b1) blen n1 = Some (res, din a', dscript a', dout b') /\ din b' = din b /\ dscript b' = dscript b /\ touched (dout a) (dout a') end).
  { intros b1 n1 B1 B2. specialize (IH a1 b1 blen n1). destruct (duplex_copy_status f a1 b1 blen n1) as [[[res a'] b']|]; [|exact IH].
    destruct IH as (I1 & I2 & I3 & I4). rewrite I2, I3. split; [exact I1|]. split; [exact B1|]. split; [exact B2|]. exact (touched_trans _ _ _ T I4). }
  destruct r as [n s| |]; [|auto|auto]. unfold duplex_write_text. destruct (write_text (dout b) cs) as [[e|] w]; [auto|]. destruct s; [apply (GO (mkduplexer (din b) w (dscript b))); reflexivity| |auto].
  unfold duplex_flush. cbn [dout din dscript]. destruct (flush w) as [[e|] w2]; [auto|]. exact (GO (mkduplexer (din b) w2 (dscript b)) _ eq_refl eq_refl).
Qed.

Lemma received_one : forall r cs rs, received ((r, cs) :: rs) = received [(r, cs)] ++ received rs.
Proof. intros. exact (flat_map_app _ [(r, cs)] rs). Qed.
Lemma copy_heard : forall intr fuel a b blen written res a' b', wf (din a) -> duplex_copy intr fuel a b blen written = Some (res, a', b') ->
  exists k rs fl, reads (din a) (dscript a) (repeat blen k) = (rs, din a', dscript a') /\ dout a' = newline (dout a) fl /\
    (received rs = [] -> fl = false) /\ (last_opt (received rs) = Some LF -> fl = true) /\ (forall n, res = CopyOk n -> reached_end rs).
Proof.
  intros intr. induction fuel as [|f IH]; intros a b blen written res a' b' W H; [discriminate|]. cbn [duplex_copy] in H.
  destruct (duplex_read a blen) as [[r cs] a1] eqn:E. pose proof (duplex_read_reader _ _ _ _ _ E) as ER. destruct (duplex_read_out _ _ _ _ _ W E) as (fl & O & K). pose proof (read_wf _ _ _ _ _ _ _ W ER) as W1.
  assert (K2 : (received [(r, cs)] = [] -> fl = false) /\ (last_opt (received [(r, cs)]) = Some LF -> fl = true)).
  { cbn [received flat_map fst snd]. destruct r; cbn [app]; rewrite ?app_nil_r; [exact K|split; [auto|discriminate]|split; [auto|discriminate]]. }
  assert (ONE : a' = a1 -> (forall n, res = CopyOk n -> r = ROk 0 End) -> exists k rs fl, reads (din a) (dscript a) (repeat blen k) = (rs, din a', dscript a') /\ dout a' = newline (dout a) fl /\
    (received rs = [] -> fl = false) /\ (last_opt (received rs) = Some LF -> fl = true) /\ (forall n, res = CopyOk n -> reached_end rs)).
  { intros -> X. exists 1%nat, [(r, cs)], fl. cbn [repeat reads]. rewrite ER. split; [reflexivity|]. split; [exact O|]. split; [apply K2|]. split; [apply K2|]. intros n Y. rewrite (X n Y). now exists [], 0%nat, cs. }
  assert (GO : forall b1 n1, duplex_copy intr f a1 b1 blen n1 = Some (res, a', b') -> exists k rs fl, reads (din a) (dscript a) (repeat blen k) = (rs, din a', dscript a') /\ dout a' = newline (dout a) fl /\
    (received rs = [] -> fl = false) /\ (last_opt (received rs) = Some LF -> fl = true) /\ (forall n, res = CopyOk n -> reached_end rs)).
  { intros b1 n1 G. destruct (IH _ _ _ _ _ _ _ W1 G) as (k & rs & fl2 & R2 & O2 & N2 & L2 & E2). exists (S k), ((r, cs) :: rs), (fl || fl2). cbn [repeat reads]. rewrite ER, R2. split; [reflexivity|].
    split; [now rewrite O2, O, newline_or|]. rewrite received_one. split; [intro Z; apply app_eq_nil in Z; destruct Z as [Z1 Z2]; now rewrite (proj1 K2 Z1), (N2 Z2)|].
    split; [|intros n Y; destruct (E2 n Y) as (x & m & c & ->); now exists ((r, cs) :: x), m, c].
    intro Z. destruct (received rs) as [|c u] eqn:ERS; [rewrite app_nil_r in Z; now rewrite (proj2 K2 Z)|]. rewrite last_nonempty in Z by discriminate. rewrite (L2 Z). apply orb_true_r. }
  destruct (std_result intr r) as [[|n]| |] eqn:SR.
  - injection H as <- <- <-. apply ONE; [reflexivity|]. intros n _. destruct r as [[|m] [| |]| |]; try discriminate; [reflexivity|destruct intr; discriminate].
  - destruct (duplex_write_text b cs) as [[e|] b1]; [injection H as <- <- <-; apply ONE; [reflexivity|discriminate]|exact (GO _ _ H)].
  - exact (GO _ _ H).
  - injection H as <- <- <-. apply ONE; [reflexivity|discriminate].
Qed.

(** * Reading to the end *)
Lemma read_out : forall m nel lsps script t ns xs blen, (measure (state_of t) (stream_of t) <= m)%nat -> reached nel lsps script t ns xs -> (136 <= blen)%nat ->
  exists k rs j rest, reads (state_of t) (stream_of t) (repeat blen k) = (rs, j, rest) /\ reached_end rs.
Proof.
  induction m as [|m IH]; intros nel lsps script t ns xs blen M R B; destruct (read (state_of t) (stream_of t) blen) as [[[r cs] i] sc] eqn:E;
    destruct (reached_step _ _ _ _ _ _ _ _ _ _ _ R B E) as (R1 & PR & _).
  - destruct PR as [->|PR]; [|lia]. exists 1%nat, [(ROk 0 End, cs)], i, sc. cbn [repeat reads]. rewrite E. split; [reflexivity|]. now exists [], 0%nat, cs.
  - destruct PR as [->|PR]; [exists 1%nat, [(ROk 0 End, cs)], i, sc; cbn [repeat reads]; rewrite E; split; [reflexivity|now exists [], 0%nat, cs]|].
    destruct (IH nel lsps script (mkreader i sc) _ _ blen ltac:(cbn; lia) R1 B) as (k & rs & j & rest & RD & RE). cbn [state_of stream_of] in RD.
    exists (S k), ((r, cs) :: rs), j, rest. cbn [repeat reads]. rewrite E, RD. split; [reflexivity|]. destruct RE as (a & n & c & ->). now exists ((r, cs) :: a), n, c.
Qed.
(** The text that is left. *)
Lemma left_text : forall nel lsps script t ns xs blen, reached nel lsps script t ns xs -> (136 <= blen)%nat ->
  exists text, gives nel lsps script (delivered xs ++ text) /\
  forall sizes rs j rest, reads (state_of t) (stream_of t) sizes = (rs, j, rest) -> (exists more, text = delivered rs ++ more) /\ (reached_end rs -> delivered rs = text).
Proof.
  intros nel lsps script t ns xs blen R B. destruct (read_out _ _ _ _ _ _ _ _ (le_n _) R B) as (k & rs & j & rest & RD & RE).
  assert (UN : forall sizes rs2 j2 rest2, reads (state_of t) (stream_of t) sizes = (rs2, j2, rest2) -> reached_end rs2 -> gives nel lsps script (delivered xs ++ delivered rs2) /\
    delivered xs ++ delivered rs2 = converted_stream nel lsps script).
  { intros sizes rs2 j2 rest2 RD2 RE2. pose proof R as (_ & R0 & _). pose proof (ExactBuf.reads_both _ _ _ _ _ _ _ _ _ _ R0 RD2) as RA. rewrite <- delivered_app.
    assert (E2 : reached_end (xs ++ rs2)) by (destruct RE2 as (a & n & c & ->); exists (xs ++ a), n, c; apply app_assoc).
    split; [do 4 eexists; split; [exact RA|]; split; [exact E2|reflexivity]|]. now destruct (session_end _ _ _ _ _ _ _ RA E2) as (-> & _). }
  exists (delivered rs). destruct (UN _ _ _ _ RD RE) as [G C]. split; [exact G|]. intros sizes rs2 j2 rest2 RD2.
  assert (UQ : forall sizes rs2 j2 rest2, reads (state_of t) (stream_of t) sizes = (rs2, j2, rest2) -> reached_end rs2 -> delivered rs2 = delivered rs).
  { intros sz r2 jj rr X Y. destruct (UN _ _ _ _ X Y) as [_ C2]. rewrite <- C in C2. now apply app_inv_head in C2. }
  split; [|intro RE2; exact (UQ _ _ _ _ RD2 RE2)]. destruct (reached_reads _ _ _ _ _ _ _ _ _ _ R RD2) as (ns2 & xs2 & R2 & D2).
  destruct (read_out _ _ _ _ _ _ _ _ (le_n _) R2 B) as (k3 & rs3 & j3 & rest3 & RD3 & RE3). cbn [state_of stream_of] in RD3. pose proof (ExactBuf.reads_both _ _ _ _ _ _ _ _ _ _ RD2 RD3) as RA.
  exists (delivered rs3). rewrite <- delivered_app. symmetry. apply (UQ _ _ _ _ RA). destruct RE3 as (a & n & c & ->). exists (rs2 ++ a), n, c. apply app_assoc.
Qed.

(** * The writing side *)
Lemma op_outcomes : forall cr d o, outcomes d = [] -> outcomes (snd (spec_op cr d o)) = [].
Proof.
  assert (SD : forall cr d t, outcomes d = [] -> outcomes (snd (spec_send cr d t)) = []) by (intros cr d t H; unfold spec_send; destruct (_ && _); [exact H|now rewrite H]).
  assert (W : forall cr d s, outcomes d = [] -> outcomes (snd (spec_write cr d s)) = []) by (intros cr d s H; unfold spec_write; destruct (failed d); [exact H|]; destruct (negb _); [exact H|now apply SD]).
  intros cr d o H. destruct o as [s|s|bs| | |]; cbn [spec_op]; [now apply W| | | | |exact H].
  - unfold spec_write_text. destruct (failed d); [exact H|now apply SD].
  - destruct (decode bs) as [[|c cs] [|y r]]; try (now apply W). exact H.
  - unfold spec_flush, spec_call. destruct (failed d); [exact H|]. destruct (opt_all _ _); [now rewrite H|exact H].
  - unfold spec_close, spec_call. destruct (failed d); [exact H|]. destruct (last_opt (text d)) as [c|]; [destruct (c =? 10)|]; rewrite ?H; auto.
Qed.
Lemma sides_outcomes : forall os rs cr d, outcomes d = [] -> outcomes (spec_sides cr d os rs) = [].
Proof.
  induction os as [|o os IH]; intros [|r rs] cr d H; try exact H. cbn [spec_sides]. apply IH. destruct o as [b|o]; cbn [spec_side]; [destruct (line_read r); exact H|now apply op_outcomes].
Qed.
Lemma outs_none : forall ps (rs : list wresult), map ok rs = map (fun _ : list N => true) ps -> Forall (eq None) rs.
Proof. induction ps as [|p ps IH]; intros [|r rs] H; try discriminate; constructor; injection H as H1 H2; [now destruct r|eapply IH; eauto]. Qed.
Lemma do_ops_length : forall os w rs w', do_ops w os = (rs, w') -> length rs = length os.
Proof. induction os as [|o os IH]; intros w rs w' H; cbn [do_ops] in H; [now injection H as <- <-|]. destruct (do_op w o) as [r w1]. destruct (do_ops w1 os) as [rs1 w2] eqn:E. injection H as <- <-. cbn. f_equal. eapply IH; eauto. Qed.

Theorem duplex_copied : forall nel lsps crA anA kA scA osA rsA a nelB lspsB cr p scB osB rsB b blen,
  do_dops (new_duplexer nel lsps crA anA kA scA) osA = (rsA, a) -> Forall (fun o => o <> DOut OpAbandon) osA ->
  do_dops (new_duplexer nelB lspsB cr false (mksink p [] false) scB) osB = (rsB, b) -> Forall plain_dop osB ->
  no_fail (dscript a) -> (136 <= blen)%nat ->
  exists text, gives nel lsps scA (delivered (read_results rsA) ++ text) /\ exists n, forall fuel, (n <= fuel)%nat -> exists res a' b',
    duplex_copy false fuel a b blen 0 = Some (res, a', b') /\ din b' = din b /\ dscript b' = dscript b /\ touched (dout a) (dout a') /\
    let d := spec_sides cr (new_doc p []) osB rsB in
    (text = [] \/ accepts d text -> res = CopyOk (str_len text) /\ emitted (inner (dout b')) = emitted (inner (dout b)) ++ as_sent cr text /\
       (text = [] -> dout b' = dout b /\ dout a' = dout a) /\
       (text <> [] -> dout a' = set_wst (dout a) (WGround Newline) /\ exists w, close (dout b') = (None, w) /\ emitted (inner w) = emitted (inner (dout b')))) /\
    (text <> [] -> ~ accepts d text -> exists e, res = CopyWrite e /\ emitted (inner (dout b')) = emitted (inner (dout b))).
Proof.
  intros nel lsps crA anA kA scA osA rsA a nelB lspsB cr p scB osB rsB b blen HA FA HB FB NF B.
  pose proof (duplex_reads _ _ _ _ HA FA) as RD. cbn [din dscript new_duplexer] in RD.
  destruct (reached_reads _ _ _ _ _ _ _ _ _ _ (reached_new nel lsps scA) RD) as (ns & xs & R & D). cbn [delivered flat_map app] in D. fold (delivered (read_results rsA)) in D. fold (reader_of a) in R.
  destruct (left_text _ _ _ _ _ _ _ R B) as (text & G & LT). rewrite D in G. exists text. split; [exact G|]. destruct (duplex_refines _ _ _ _ _ _ _ _ _ HB FB) as [_ RF].
  pose proof (sides_outcomes osB rsB cr (new_doc p []) eq_refl) as OC. set (d := spec_sides cr (new_doc p []) osB rsB) in *. clearbody d.
  assert (W : wf (din a)) by exact (proj1 (proj2 (proj2 R))). destruct R as (LS & R0 & _ & D0 & AI). cbn [reader_of state_of stream_of] in R0, AI, LT.
  exists (S (measure (din a) (dscript a))). intros fuel HF. pose proof (copy_sides false fuel a b blen 0) as CS.
  destruct (duplex_copy false fuel a b blen 0) as [[[res a'] b']|] eqn:DC; [|exfalso; refine (copy_total false fuel _ _ _ blen 0 D0 W AI _ _ CS); [exact B|lia]].
  destruct CS as (CT & B1 & B2 & TO). exists res, a', b'. split; [reflexivity|]. split; [exact B1|]. split; [exact B2|]. split; [exact TO|].
  destruct (copy_trace _ _ _ _ _ _ _ _ _ _ _ W CT) as (k & rs & outs & RS & DO & T). destruct (texts_received _ _ _ _ _ _ W RS) as [TR TN].
  pose proof (ReadProps.received_delivered _ _ _ _ _ _ W NF RS) as RC. rewrite RC in TR. destruct (LT _ _ _ _ RS) as ((more & EM) & UE).
  assert (SS : is_basic_text_substr (delivered rs) = true).
  { pose proof (ExactBuf.reads_both _ _ _ _ _ _ _ _ _ _ R0 RS) as RA. destruct (delivered_substr _ _ _ _ _ _ _ RA) as [SB _]. rewrite delivered_app in SB. exact (proj2 (substr_app _ _ SB)). }
  pose proof (texts_plain _ SS TN) as PL. destruct (ops_refine _ cr _ _ RF PL) as [O1 O2]. rewrite DO in O1, O2. cbn [fst snd] in O1, O2.
  pose proof (reads_valid _ _ _ _ _ _ W NF (legal_repeat blen k B) RS) as RV. cbv zeta.
  assert (NR : res <> CopyRead).
  { intros ->. destruct T as (_ & rs' & r & cs & -> & T). apply Forall_app in RV. destruct RV as [_ RV]. inversion RV as [|? ? [V1 V2] _]; subst. cbn in V1, V2. destruct T; congruence. }
  assert (RB : emitted (inner (dout b)) = sent d) by apply RF. rewrite RB.
  split.
  - intro GD.
    assert (ALL : Forall (eq None) outs /\ emitted (inner (dout b')) = sent d ++ as_sent cr (delivered rs) /\ (delivered rs <> [] -> refines cr (mkdoc (SpecWrite.text d ++ delivered rs) (sent d ++ as_sent cr (delivered rs)) false false []) (dout b')) /\ (delivered rs = [] -> dout b' = dout b)).
    { destruct (texts rs) as [|t ts] eqn:ET.
      - cbn [map do_ops] in DO. injection DO as <- DO. cbn in TR. rewrite <- TR, as_sent_nil, app_nil_r, <- DO. split; [constructor|]. split; [exact RB|]. split; [now intro|reflexivity].
      - rewrite <- ET in *. assert (NE : delivered rs <> []) by (rewrite <- TR, ET; cbn; inversion TN; subst; [congruence|]; rewrite ET in *; intro K; apply app_eq_nil in K; destruct K; subst; inversion TN; congruence).
        destruct GD as [->|(F & ST)]; [symmetry in EM; apply app_eq_nil in EM; destruct EM; contradiction|].
        assert (SP : fresh d = true -> starts_ok (concat (texts rs))).
        { intro X. rewrite TR. specialize (ST X). rewrite EM in ST. intros c u E. apply (ST c (u ++ more)). now rewrite E. }
        rewrite (spec_pieces cr _ d F OC TN SP), TR in O1, O2. cbn [fst snd] in O1, O2. split; [exact (outs_none _ _ O1)|]. split; [apply O2|]. split; [intros _; rewrite ET in O2; exact O2|now intro]. }
    destruct ALL as (AN & EB & RFN & NIL).
    destruct res as [n| |e]; cbn [trace_ok] in T; [|now destruct NR|exfalso; destruct T as (o' & -> & _); apply Forall_app in AN; destruct AN as [_ AN]; inversion AN; discriminate].
    destruct T as (T1 & _ & ->). assert (RE : reached_end rs) by (destruct T1 as [rs' ->]; now exists rs', 0%nat, []). specialize (UE RE). rewrite RC, UE in *. cbn [Nat.add].
    split; [reflexivity|]. split; [exact EB|].
    assert (LT2 : line_terminated (delivered xs ++ text)) by (destruct G as (sz & r2 & j2 & rest2 & G1 & G2 & G3); rewrite D, <- G3; exact (proj2 (session_is_text_buffers _ _ _ _ _ _ _ G1 G2))).
    destruct (copy_heard _ _ _ _ _ _ _ _ _ W DC) as (k2 & rs2 & fl & RS2 & OA & N2 & L2 & E2).
    assert (RC2 : received rs2 = text) by (rewrite (ReadProps.received_delivered _ _ _ _ _ _ W NF RS2); exact (proj2 (LT _ _ _ _ RS2) (E2 _ eq_refl))). rewrite RC2 in N2, L2.
    split; [intro X; split; [auto|rewrite OA, (N2 X); reflexivity]|]. intro NE.
    assert (LL : last_opt text = Some LF).
    { destruct LT2 as [X|[u X]]; [apply app_eq_nil in X; now destruct X|]. rewrite <- (last_nonempty (delivered xs) text NE), X. apply last_opt_snoc. }
    split; [now rewrite OA, (L2 LL)|]. rewrite EB. destruct (op_refines cr _ _ OpClose (RFN NE) Logic.I) as [C1 C2]. cbn [do_op spec_op] in C1, C2. unfold spec_close in C1, C2. cbn [failed SpecWrite.text] in C1, C2.
    rewrite (last_nonempty _ text NE), LL in C1, C2. change (LF =? 10) with true in C1, C2. cbv iota in C1, C2. destruct (close (dout b')) as [[e|] w']; cbn [fst snd] in C1, C2; [discriminate|]. exists w'. split; [reflexivity|].
    apply C2.
  - intros NE NA.
    assert (FIRST : forall t ts, texts rs = t :: ts -> exists e o2, outs = Some e :: o2 /\ (ts = [] -> emitted (inner (dout b')) = sent d)).
    { intros t ts ET. rewrite ET in O1, O2, TR, TN. cbn [map spec_ops spec_op] in O1, O2. pose proof (Forall_inv TN) as T1.
      assert (ES : exists d1, spec_write_text cr d t = (false, d1) /\ sent d1 = sent d).
      { unfold spec_write_text. destruct (failed d) eqn:F; [eauto|]. unfold spec_send. destruct (fresh d) eqn:FR; [|exfalso; apply NA; split; [exact F|intro X; rewrite FR in X; discriminate]].
        destruct t as [|c t]; [now destruct T1|]. destruct (is_basic_text_start c) eqn:SC; cbn [head_opt opt_all]; rewrite SC; cbn [andb negb]; [|exists (fail d); auto].
        exfalso. apply NA. split; [exact F|]. intros _. intros c' u X. cbn [concat app] in TR. rewrite <- TR in EM. cbn [app] in EM. rewrite EM in X. injection X as <- _. exact SC. }
      destruct ES as (d1 & ES & SD). rewrite ES in O1, O2. destruct (spec_ops cr d1 (map OpWriteText ts)) as [bs d2] eqn:E2. cbn [fst snd] in O1, O2. destruct outs as [|[e|] o2]; try discriminate.
      exists e, o2. split; [reflexivity|]. intros ->. cbn in E2. injection E2 as <- <-. rewrite <- SD. apply O2. }
    destruct res as [n| |e]; [|now destruct NR|].
    + exfalso. cbn [trace_ok] in T. destruct T as (T1 & AN & _). assert (RE : reached_end rs) by (destruct T1 as [rs' ->]; now exists rs', 0%nat, []). specialize (UE RE).
      destruct (texts rs) as [|t ts] eqn:ET; [cbn in TR; congruence|]. destruct (FIRST _ _ eq_refl) as (e & o2 & -> & _). inversion AN; discriminate.
    + exists e. split; [reflexivity|]. cbn [trace_ok] in T. destruct T as (o' & EO & AN). pose proof (do_ops_length _ _ _ _ DO) as LN. rewrite map_length in LN.
      destruct (texts rs) as [|t ts] eqn:ET; [rewrite EO, app_length in LN; cbn in LN; lia|]. destruct (FIRST _ _ eq_refl) as (e' & o2 & EO2 & EMT). apply EMT.
      rewrite EO2 in EO. destruct o' as [|x o']; [injection EO as _ ->; rewrite EO2 in LN; cbn in LN; now destruct ts|]. injection EO as <- _. inversion AN; discriminate.
Qed.

(** * copy_text_using_status *)
Lemma write_dead : forall w s, abandoned (inner w) = true -> exists e w', write_text w s = (Some e, w').
Proof.
  intros w s H. destruct s as [|c s].
  - unfold write_text. cbn [split_lf]. destruct (crlf w);
      match goal with |- exists e w', write_buffer ?x = _ => destruct (write_buffer_abandoned x) as (e & w' & E & _); [destruct w; exact H|eauto] end.
  - rewrite write_text_eq by discriminate. match goal with |- exists e w', write_buffer ?x = _ => destruct (write_buffer_abandoned x) as (e & w' & E & _); [destruct w; exact H|eauto] end.
Qed.
Lemma refines_calm : forall cr d w, refines cr d w -> failed d = false -> outcomes d = [] -> calm cr (sent d) w /\ expect w = fresh d.
Proof.
  intros cr d [b cr' ex an st es [em o ab]] (H1 & H2 & H3 & H4 & H5 & H6 & H7) F O. rewrite F in *. cbn in *. subst. destruct H7 as (-> & -> & _). unfold calm. cbn. rewrite O. auto.
Qed.
Theorem duplex_copied_status : forall nel lsps crA anA kA scA osA rsA a nelB lspsB cr p scB osB rsB b blen,
  do_dops (new_duplexer nel lsps crA anA kA scA) osA = (rsA, a) -> Forall (fun o => o <> DOut OpAbandon) osA ->
  do_dops (new_duplexer nelB lspsB cr false (mksink p [] false) scB) osB = (rsB, b) -> Forall plain_dop osB ->
  no_fail (dscript a) -> (136 <= blen)%nat ->
  exists k rs j rest, reads (din a) (dscript a) (repeat blen k) = (rs, j, rest) /\ reached_end rs /\ gives nel lsps scA (delivered (read_results rsA) ++ delivered rs) /\
  exists n, forall fuel, (n <= fuel)%nat -> exists res a' b',
    duplex_copy_status fuel a b blen 0 = Some (res, a', b') /\ din b' = din b /\ dscript b' = dscript b /\ touched (dout a) (dout a') /\
    let d := spec_sides cr (new_doc p []) osB rsB in
    (ready d rs -> res = CopyOk (str_len (delivered rs)) /\ emitted (inner (dout b')) = emitted (inner (dout b)) ++ as_sent cr (delivered rs) /\
       exists w, close (dout b') = (None, w) /\ emitted (inner w) = emitted (inner (dout b'))) /\
    (~ ready d rs -> exists e, res = CopyWrite e).
Proof.
  intros nel lsps crA anA kA scA osA rsA a nelB lspsB cr p scB osB rsB b blen HA FA HB FB NF B.
  pose proof (duplex_reads _ _ _ _ HA FA) as RD. cbn [din dscript new_duplexer] in RD.
  destruct (reached_reads _ _ _ _ _ _ _ _ _ _ (reached_new nel lsps scA) RD) as (ns & xs & R & D). cbn [delivered flat_map app] in D. fold (delivered (read_results rsA)) in D. fold (reader_of a) in R.
  destruct (left_text _ _ _ _ _ _ _ R B) as (text & G & LT). rewrite D in G. destruct (duplex_refines _ _ _ _ _ _ _ _ _ HB FB) as [_ RF].
  pose proof (sides_outcomes osB rsB cr (new_doc p []) eq_refl) as OC. set (d := spec_sides cr (new_doc p []) osB rsB) in *. clearbody d.
  destruct (read_out _ _ _ _ _ _ _ _ (le_n _) R B) as (k0 & rs0 & j0 & rest0 & R1 & RE1). destruct (first_end_reads _ _ _ _ _ _ _ R1 RE1) as (k & rs' & m & c & j & rest & RS & NE).
  assert (W : wf (din a)) by exact (proj1 (proj2 (proj2 R))). cbn [reader_of state_of stream_of] in RS, LT.
  set (rs := rs' ++ [(ROk m End, c)]) in *. assert (RE : reached_end rs) by (now exists rs', m, c). destruct (LT _ _ _ _ RS) as (_ & UE). specialize (UE RE).
  exists k, rs, j, rest. split; [exact RS|]. split; [exact RE|]. split; [now rewrite UE|]. exists k. intros fuel L. pose proof (ReadProps.received_delivered _ _ _ _ _ _ W NF RS) as RC.
  assert (LT2 : line_terminated (delivered xs ++ delivered rs)) by (rewrite UE; destruct G as (sz & r2 & j2 & rest2 & G1 & G2 & G3); rewrite D, <- G3; exact (proj2 (session_is_text_buffers _ _ _ _ _ _ _ G1 G2))).
  pose proof (copy_status_sides fuel a b blen 0) as CS. assert (RB : emitted (inner (dout b)) = sent d) by apply RF. cbv zeta. rewrite RB.
  destruct (failed d) eqn:F.
  - assert (AB : abandoned (inner (dout b)) = true) by (rewrite <- F; apply RF).
    assert (ST : exists e i2 s2 w2, copy_status fuel (din a) (dscript a) (dout b) blen 0 = Some (CopyWrite e, i2, s2, w2)).
    { destruct fuel as [|f]; [destruct k; [cbn in RS; injection RS as E _ _; unfold rs in E; destruct rs'; discriminate|lia]|]. cbn [copy_status].
      destruct (read (din a) (dscript a) blen) as [[[r cs] i2] s2] eqn:ER.
      assert (R2 : reads (din a) (dscript a) (repeat blen 1) = ([(r, cs)], i2, s2)) by (cbn [repeat reads]; now rewrite ER).
      pose proof (reads_valid _ _ _ _ _ _ W NF (legal_repeat blen 1 B) R2) as RV. apply Forall_inv in RV. cbn in RV. destruct r as [n s| |]; [|now destruct RV|now destruct RV].
      destruct (write_dead (dout b) cs AB) as (e & w2 & ->). eauto. }
    destruct ST as (e & i2 & s2 & w2 & ST). destruct (duplex_copy_status fuel a b blen 0) as [[[res a'] b']|]; [|congruence]. destruct CS as (CT & B1 & B2 & TO). rewrite ST in CT. injection CT as <- _ _ _.
    exists (CopyWrite e), a', b'. split; [reflexivity|]. split; [exact B1|]. split; [exact B2|]. split; [exact TO|]. split; [intros (X & _); congruence|eauto].
  - destruct (refines_calm _ _ _ RF F OC) as [CA EX].
    assert (FO : ready d rs <-> first_ok (dout b) rs /\ push_safe rs).
    { unfold ready, first_ok. rewrite EX. split; [intros (_ & X & Y); auto|intros (X & Y); auto]. }
    destruct (status_run blen B k _ _ rs' m c j rest (dout b) cr (sent d) 0 W NF CA RS NE fuel L) as [(X1 & X2 & w & X3 & X4 & X5)|(X1 & e & j' & rest' & w & X2)].
    + fold rs in X1, X2, X3, X4. destruct (duplex_copy_status fuel a b blen 0) as [[[res a'] b']|]; [|congruence]. destruct CS as (CT & B1 & B2 & TO). rewrite X3 in CT. injection CT as <- _ _ ->.
      exists (CopyOk (str_len (received rs))), a', b'. split; [reflexivity|]. split; [exact B1|]. split; [exact B2|]. split; [exact TO|]. rewrite RC in *. split; [|intro K; now destruct K; apply FO].
      intros _. split; [reflexivity|]. destruct X4 as (C1 & C2 & C3 & C4). rewrite C4. split; [reflexivity|].
      assert (TG : text_ground c = Newline).
      { destruct c as [|x c _] using rev_ind; [reflexivity|]. unfold text_ground. rewrite last_opt_snoc. unfold rs in LT2. rewrite delivered_app in LT2. cbn [delivered flat_map fst snd] in LT2.
        rewrite app_nil_r, !app_assoc in LT2. destruct LT2 as [Z|[u Z]]; [now apply app_eq_nil in Z; destruct Z|]. apply app_inj_tail in Z. destruct Z as [_ ->]. reflexivity. }
      rewrite TG in X5. eexists. unfold close, check_nl. cbn [set_exp wst]. rewrite X5. cbn [and_then set_exp inner]. rewrite C4. cbn. split; [reflexivity|]. cbn. apply app_nil_r.
    + fold rs in X1. destruct (duplex_copy_status fuel a b blen 0) as [[[res a'] b']|]; [|congruence]. destruct CS as (CT & B1 & B2 & TO). rewrite X2 in CT. injection CT as <- _ _ _.
      exists (CopyWrite e), a', b'. split; [reflexivity|]. split; [exact B1|]. split; [exact B2|]. split; [exact TO|]. split; [intro K; destruct X1; now apply FO|eauto].
Qed.

(** * Whatever fails *)
Lemma stuck_ops : forall cr ps d, failed d = true -> snd (spec_ops cr d (map OpWriteText ps)) = d.
Proof.
  intros cr. induction ps as [|t ps IH]; intros d F; [reflexivity|]. cbn [map spec_ops spec_op]. unfold spec_write_text. rewrite F. destruct (spec_ops cr d (map OpWriteText ps)) as [bs d1] eqn:E. cbn. rewrite <- (IH d F), E. reflexivity.
Qed.
Lemma stuck_first : forall cr t ps d, failed d = true -> exists bs, fst (spec_ops cr d (map OpWriteText (t :: ps))) = false :: bs.
Proof. intros cr t ps d F. cbn [map spec_ops spec_op]. unfold spec_write_text. rewrite F. destruct (spec_ops cr d (map OpWriteText ps)) as [bs d1]. now exists bs. Qed.
Theorem duplex_copy_any : forall intr nel lsps crA anA kA scA osA rsA a nelB lspsB cr p o scB osB rsB b blen fuel res a' b',
  do_dops (new_duplexer nel lsps crA anA kA scA) osA = (rsA, a) -> Forall (fun o => o <> DOut OpAbandon) osA ->
  do_dops (new_duplexer nelB lspsB cr false (mksink p o false) scB) osB = (rsB, b) -> Forall plain_dop osB ->
  duplex_copy intr fuel a b blen 0 = Some (res, a', b') ->
  din b' = din b /\ dscript b' = dscript b /\ touched (dout a) (dout a') /\
  exists k rs, reads (din a) (dscript a) (repeat blen k) = (rs, din a', dscript a') /\ prefix_of (emitted (inner (dout b'))) (emitted (inner (dout b)) ++ as_sent cr (received rs)) /\
    match res with
    | CopyOk n => reached_end rs /\ n = str_len (received rs) /\ emitted (inner (dout b')) = emitted (inner (dout b)) ++ as_sent cr (received rs)
    | CopyRead => emitted (inner (dout b')) = emitted (inner (dout b)) ++ as_sent cr (received rs)
    | CopyWrite _ => True
    end.
Proof.
  intros intr nel lsps crA anA kA scA osA rsA a nelB lspsB cr p o scB osB rsB b blen fuel res a' b' HA FA HB FB DC.
  pose proof (copy_sides intr fuel a b blen 0) as CS. rewrite DC in CS. destruct CS as (CT & B1 & B2 & TO). split; [exact B1|]. split; [exact B2|]. split; [exact TO|].
  pose proof (duplex_reads _ _ _ _ HA FA) as RD. cbn [din dscript new_duplexer] in RD.
  assert (W : wf (din a)) by (destruct (reached_reads _ _ _ _ _ _ _ _ _ _ (reached_new nel lsps scA) RD) as (ns & xs & (_ & _ & W & _) & _); exact W).
  destruct (copy_trace _ _ _ _ _ _ _ _ _ _ _ W CT) as (k & rs & outs & RS & DO & T). destruct (texts_received _ _ _ _ _ _ W RS) as [TR TN].
  assert (SS : is_basic_text_substr (delivered rs) = true).
  { pose proof (ExactBuf.reads_both _ _ _ _ _ _ _ _ _ _ RD RS) as RA. destruct (delivered_substr _ _ _ _ _ _ _ RA) as [SB _]. rewrite delivered_app in SB. exact (proj2 (substr_app _ _ SB)). }
  pose proof (texts_plain _ SS TN) as PL. destruct (duplex_refines _ _ _ _ _ _ _ _ _ HB FB) as [_ RF]. set (d := spec_sides cr (new_doc p o) osB rsB) in *. clearbody d.
  destruct (ops_refine _ cr _ _ RF PL) as [O1 O2]. rewrite DO in O1, O2. cbn [fst snd] in O1, O2.
  assert (RB : emitted (inner (dout b)) = sent d) by apply RF. rewrite RB. exists k, rs. split; [exact RS|].
  assert (K : prefix_of (emitted (inner (dout b'))) (sent d ++ as_sent cr (received rs)) /\ (Forall (eq None) outs -> emitted (inner (dout b')) = sent d ++ as_sent cr (received rs))).
  { destruct (failed d) eqn:F.
    - rewrite stuck_ops in O2 by exact F. assert (E : emitted (inner (dout b')) = sent d) by apply O2. rewrite E. split; [now exists (as_sent cr (received rs))|]. intro AN.
      destruct (texts rs) as [|t ts]; [cbn in TR; rewrite <- TR, as_sent_nil; apply eq_sym, app_nil_r|]. destruct (stuck_first cr t ts d F) as [bs ES]. rewrite ES in O1. destruct AN as [|x l <- _]; discriminate.
    - destruct (spec_ops cr d (map OpWriteText (texts rs))) as [bs d'] eqn:ES. cbn [fst snd] in O1, O2. destruct (spec_pieces_prefix cr (texts rs) d _ _ F ES) as (P1 & P2). rewrite TR in P1, P2.
      assert (E : emitted (inner (dout b')) = sent d') by apply O2. rewrite E. split; [exact P1|]. intro AN. apply P2. rewrite <- O1. clear -AN. induction AN; constructor; [now subst|assumption]. }
  destruct K as [K1 K2]. split; [exact K1|]. destruct res as [n| |e]; cbn [trace_ok] in T; auto.
  - destruct T as ((rs' & ->) & T2 & ->). split; [now exists rs', 0%nat, []|]. split; [reflexivity|auto].
  - destruct T as [T _]. auto.
Qed.
Lemma dead_write : forall w s, abandoned (inner w) = true -> exists e w', write_text w s = (Some e, w') /\ inner w' = inner w.
Proof.
  intros w s H. destruct s as [|c s].
  - unfold write_text. cbn [split_lf]. destruct (crlf w);
      match goal with |- exists e w', write_buffer ?x = _ /\ _ => destruct (write_buffer_abandoned x) as (e & w' & E & _ & _ & _ & EI & _); [destruct w; exact H|exists e, w'; split; [exact E|rewrite EI; destruct w; reflexivity]] end.
  - rewrite write_text_eq by discriminate. match goal with |- exists e w', write_buffer ?x = _ /\ _ => destruct (write_buffer_abandoned x) as (e & w' & E & _ & _ & _ & EI & _); [destruct w; exact H|exists e, w'; split; [exact E|rewrite EI; destruct w; reflexivity]] end.
Qed.
Theorem duplex_status_any : forall nel lsps crA anA kA scA osA rsA a nelB lspsB cr p o scB osB rsB b blen fuel res a' b',
  do_dops (new_duplexer nel lsps crA anA kA scA) osA = (rsA, a) -> Forall (fun o => o <> DOut OpAbandon) osA ->
  do_dops (new_duplexer nelB lspsB cr false (mksink p o false) scB) osB = (rsB, b) -> Forall plain_dop osB ->
  duplex_copy_status fuel a b blen 0 = Some (res, a', b') ->
  din b' = din b /\ dscript b' = dscript b /\ touched (dout a) (dout a') /\
  exists k rs, reads (din a) (dscript a) (repeat blen k) = (rs, din a', dscript a') /\ prefix_of (emitted (inner (dout b'))) (emitted (inner (dout b)) ++ as_sent cr (received rs)) /\
    match res with
    | CopyOk n => reached_end rs /\ n = str_len (received rs) /\ emitted (inner (dout b')) = emitted (inner (dout b)) ++ as_sent cr (received rs)
    | CopyRead => emitted (inner (dout b')) = emitted (inner (dout b)) ++ as_sent cr (received rs)
    | CopyWrite _ => True
    end.
Proof.
  intros nel lsps crA anA kA scA osA rsA a nelB lspsB cr p o scB osB rsB b blen fuel res a' b' HA FA HB FB DC.
  pose proof (copy_status_sides fuel a b blen 0) as CS. rewrite DC in CS. destruct CS as (CT & B1 & B2 & TO). split; [exact B1|]. split; [exact B2|]. split; [exact TO|].
  pose proof (duplex_reads _ _ _ _ HA FA) as RD. cbn [din dscript new_duplexer] in RD.
  assert (W : wf (din a)) by (destruct (reached_reads _ _ _ _ _ _ _ _ _ _ (reached_new nel lsps scA) RD) as (ns & xs & (_ & _ & W & _) & _); exact W).
  destruct (duplex_refines _ _ _ _ _ _ _ _ _ HB FB) as [_ RF]. set (d := spec_sides cr (new_doc p o) osB rsB) in *. clearbody d.
  destruct RF as (R1 & R2 & _ & _ & R5 & _ & R7). destruct (failed d) eqn:F.
  - destruct fuel as [|f]; cbn [copy_status] in CT; [discriminate|]. destruct (read (din a) (dscript a) blen) as [[[r cs] i1] sc1] eqn:ER.
    assert (R1' : reads (din a) (dscript a) (repeat blen 1) = ([(r, cs)], i1, sc1)) by (cbn [repeat reads]; now rewrite ER).
    destruct r as [n s| |].
    2,3: injection CT as <- <- <- <-; eexists 1%nat, _; (split; [exact R1'|]); cbn [received flat_map fst snd]; rewrite as_sent_nil, !app_nil_r; split; [apply prefix_refl|reflexivity].
    destruct (dead_write (dout b) cs R5) as (e & w' & EW & EI). rewrite EW in CT. injection CT as <- <- <- <-. eexists 1%nat, _. split; [exact R1'|]. rewrite EI. split; [now eexists|exact Logic.I].
  - destruct R7 as (R7 & _). exact (status_any_from _ _ _ _ _ _ _ _ _ _ cr W (conj R1 (conj R2 R7)) CT).
Qed.
