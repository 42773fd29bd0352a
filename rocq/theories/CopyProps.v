(** copy_text and copy_text_using_status. *)
From Coq Require Import NArith Arith List Bool Lia ZifyBool ZifyNat ZifyN.
From Verif Require Import Base Ucd UcdTables Norm Chars TextTables TextUtils UcdFacts NormFacts CharFacts DocTable SpecText TextFacts PipelineFacts DocFacts IsoFacts
  Utf8 Utf8Facts Input Output ReadFacts ReadInv ReadSession SpecRead ReadChunk SpecEscape EscapeFacts EscapeRun ReadProps KeepFacts ReadPieces SpecConv ConvFacts ReadMore
  SpecWrite WriteFacts WriteProps Copy.
Import ListNotations.
Local Open Scope N_scope.
Arguments N.add : simpl never.
Arguments N.leb : simpl never.
Arguments N.ltb : simpl never.
Arguments N.eqb : simpl never.
Local Opaque pipeline.

(** The texts of the successful reads that gave any. *)
Definition texts (rs : list (read_result * list N)) : list (list N) :=
  flat_map (fun r => match fst r with ROk (S _) _ => [snd r] | _ => [] end) rs.

Lemma read_count : forall i sc b n s cs j sc', wf i -> read i sc b = (ROk n s, cs, j, sc') -> n = str_len cs.
Proof.
  intros i sc b n s cs j sc' W H. destruct (read_spec _ _ _ _ _ _ _ W H) as (_ & _ & _ & C).
  destruct C as [(E & _)|[(E & _)|[(E & _)|(raw & s' & new & cs2 & _ & _ & _ & _ & _ & _ & _ & [(E & _)|(E & _)])]]]; congruence.
Qed.
Lemma str_len_zero : forall s, str_len s = 0%nat -> s = [].
Proof. intros [|c s] H; [reflexivity|]. cbn in H. pose proof (utf8_len_pos c). lia. Qed.
Lemma read_wf : forall i sc b r cs j sc', wf i -> read i sc b = (r, cs, j, sc') -> wf j.
Proof. intros i sc b r cs j sc' W H. destruct (read_spec _ _ _ _ _ _ _ W H) as (W1 & _). exact W1. Qed.

Lemma texts_received : forall sizes i sc rs j sc', wf i -> reads i sc sizes = (rs, j, sc') -> concat (texts rs) = received rs /\ Forall (fun t => t <> []) (texts rs).
Proof.
  induction sizes as [|b sizes IH]; intros i sc rs j sc' W H; cbn [reads] in H.
  - injection H as <- <- <-. split; [reflexivity|constructor].
  - destruct (read i sc b) as [[[r cs] i1] sc1] eqn:ER. destruct (reads i1 sc1 sizes) as [[rs' j'] sc2] eqn:ERS. injection H as <- <- <-.
    destruct (IH _ _ _ _ _ (read_wf _ _ _ _ _ _ _ W ER) ERS) as [IH1 IH2]. cbn [texts received flat_map fst snd]. fold (texts rs') (received rs').
    destruct r as [[|n] s| |]; cbn [app concat]; try (rewrite IH1; auto).
    + rewrite (str_len_zero cs) by (symmetry; exact (read_count _ _ _ _ _ _ _ _ W ER)). auto.
    + split; [reflexivity|]. constructor; [|exact IH2]. intros ->. apply read_count in ER; [|exact W]. discriminate.
Qed.

Definition trace_ok (written : nat) (rs : list (read_result * list N)) (outs : list wresult) (res : copy_result) : Prop :=
  match res with
  | CopyOk n => (exists rs', rs = rs' ++ [(ROk 0 End, [])]) /\ Forall (eq None) outs /\ n = (written + str_len (received rs))%nat
  | CopyRead => Forall (eq None) outs /\ exists rs' r cs, rs = rs' ++ [(r, cs)] /\ (r = RInvalid \/ r = RErr)
  | CopyWrite e => exists outs', outs = outs' ++ [Some e] /\ Forall (eq None) outs'
  end.
Lemma copy_trace : forall intr fuel i sc w blen written res i' sc' w', wf i -> copy_text intr fuel i sc w blen written = Some (res, i', sc', w') ->
  exists k rs outs, reads i sc (repeat blen k) = (rs, i', sc') /\ do_ops w (map OpWriteText (texts rs)) = (outs, w') /\ trace_ok written rs outs res.
Proof.
  intros intr. induction fuel as [|f IH]; intros i sc w blen written res i' sc' w' W H; cbn [copy_text] in H; [discriminate|].
  destruct (read i sc blen) as [[[r cs] i1] sc1] eqn:ER. pose proof (read_wf _ _ _ _ _ _ _ W ER) as W1.
  assert (CONT : forall w1 written1, copy_text intr f i1 sc1 w1 blen written1 = Some (res, i', sc', w') -> texts [(r, cs)] = [] -> w1 = w -> written1 = written -> received [(r, cs)] = [] ->
    exists k rs outs, reads i sc (repeat blen k) = (rs, i', sc') /\ do_ops w (map OpWriteText (texts rs)) = (outs, w') /\ trace_ok written rs outs res).
  { intros w1 wr1 HC HT -> -> HR. destruct (IH _ _ _ _ _ _ _ _ _ W1 HC) as (k & rs & outs & R & D & T). exists (S k), ((r, cs) :: rs), outs.
    cbn [repeat reads]. rewrite ER, R. split; [reflexivity|].
    change (texts ((r, cs) :: rs)) with (texts ([(r, cs)] ++ rs)). unfold texts. rewrite flat_map_app. fold (texts [(r, cs)]) (texts rs). rewrite HT. split; [exact D|].
    assert (RE : received ((r, cs) :: rs) = received rs).
    { change ((r, cs) :: rs) with ([(r, cs)] ++ rs). unfold received. rewrite flat_map_app. fold (received [(r, cs)]) (received rs). now rewrite HR. }
    destruct res; cbn in *.
    - destruct T as ((rs' & ->) & T2 & T3). rewrite RE. split; [|auto]. exists ((r, cs) :: rs'). reflexivity.
    - destruct T as (T1 & rs' & r' & cs' & -> & T2). split; [exact T1|]. exists ((r, cs) :: rs'), r', cs'. auto.
    - exact T. }
  assert (STOP : forall k rs outs, k = 1%nat -> rs = [(r, cs)] -> outs = [] -> texts rs = [] -> trace_ok written rs outs res -> (i', sc', w') = (i1, sc1, w) ->
    exists k rs outs, reads i sc (repeat blen k) = (rs, i', sc') /\ do_ops w (map OpWriteText (texts rs)) = (outs, w') /\ trace_ok written rs outs res).
  { intros k rs outs -> -> -> HT T E. injection E as -> -> ->. exists 1%nat, [(r, cs)], []. cbn [repeat reads]. rewrite ER, HT. auto. }
  destruct r as [[|n] s| |]; cbn [std_result] in H.
  - assert (cs = []) by (apply str_len_zero; symmetry; exact (read_count _ _ _ _ _ _ _ _ W ER)). subst cs.
    destruct s; [apply (CONT _ _ H); reflexivity|apply (CONT _ _ H); reflexivity|]. injection H as <- <- <- <-.
    apply (STOP 1%nat [(ROk 0 End, [])] []); try reflexivity. cbn. split; [exists []; reflexivity|]. split; [constructor|lia].
  - assert (H' : match write_text w cs with
                 | (None, w1) => copy_text intr f i1 sc1 w1 blen (written + S n)
                 | (Some e, w1) => Some (CopyWrite e, i1, sc1, w1) end = Some (res, i', sc', w')) by (destruct s; exact H). clear H.
    destruct (write_text w cs) as [[e|] w1] eqn:EW.
    + injection H' as <- <- <- <-. exists 1%nat, [(ROk (S n) s, cs)], [Some e]. cbn [repeat reads]. rewrite ER. split; [reflexivity|].
      cbn [texts flat_map fst snd app map do_ops do_op]. rewrite EW. split; [reflexivity|]. exists []. split; [reflexivity|constructor].
    + destruct (IH _ _ _ _ _ _ _ _ _ W1 H') as (k & rs & outs & R & D & T). exists (S k), ((ROk (S n) s, cs) :: rs), (None :: outs).
      cbn [repeat reads]. rewrite ER, R. split; [reflexivity|]. cbn [texts flat_map fst snd app map do_ops do_op]. fold (texts rs). rewrite EW, D. split; [reflexivity|].
      assert (RE : received ((ROk (S n) s, cs) :: rs) = cs ++ received rs) by reflexivity.
      apply read_count in ER; [|exact W]. destruct res; cbn in *.
      * destruct T as ((rs' & ->) & T2 & T3). rewrite RE, str_len_app. split; [exists ((ROk (S n) s, cs) :: rs'); reflexivity|]. split; [now constructor|lia].
      * destruct T as (T1 & rs' & r' & cs' & -> & T2). split; [now constructor|]. exists ((ROk (S n) s, cs) :: rs'), r', cs'. auto.
      * destruct T as (outs' & -> & T2). exists (None :: outs'). split; [reflexivity|now constructor].
  - injection H as <- <- <- <-. apply (STOP 1%nat [(RInvalid, cs)] []); try reflexivity. cbn. split; [constructor|]. exists [], RInvalid, cs. auto.
  - destruct intr; cbn in H.
    + apply (CONT _ _ H); reflexivity.
    + injection H as <- <- <- <-. apply (STOP 1%nat [(RErr, cs)] []); try reflexivity. cbn. split; [constructor|]. exists [], RErr, cs. auto.
Qed.

(** * Termination *)
Lemma read_progress0 : forall D i script b r cs j script', wf i -> ainv D (abs_of i) -> (NORMALIZATION_BUFFER_SIZE <= b)%nat ->
  read i script b = (r, cs, j, script') ->
  (exists D', ainv D' (abs_of j)) /\ (r = ROk 0 End \/ (measure j script' < measure i script)%nat).
Proof.
  intros D i script b r cs j script' W I B H. destruct (read_progress _ _ _ _ _ _ _ _ W I B H) as [I' [[n E]|P]]; [|auto]. split; [exact I'|].
  subst r. pose proof (read_count _ _ _ _ _ _ _ _ W H) as EN. destruct cs as [|c cs]; [left; now subst|right].
  destruct (read_spec _ _ _ _ _ _ _ W H) as (W1 & N1 & L1 & C).
  unfold measure. rewrite N1, L1.
  destruct C as [(X & _)|[(X & _)|[(X & _)|(raw & s & new & cs2 & EI & _ & PA & AB & EC & EW & _ & K)]]]; try discriminate.
  destruct K as [(X & AV & PJ)|(X & _)]; [|discriminate]. injection X as _ <-. rewrite PA, AV, PJ. cbn [length is_active].
  assert (FE : ReadSession.finalb (abs_of j) = true).
  { destruct (absorb_end _ _ _ _ _ _ _ I AB) as (F1 & (bb & F2 & ->) & _). now apply final_intro. }
  destruct script as [|[cs0 s'|] t]; cbn in EI; [|destruct s'; try discriminate|discriminate]; injection EI as <- <-; cbn [future]; rewrite FE.
  - destruct (ReadSession.finalb (abs_of i)) eqn:EF.
    + apply final_elim in EF. destruct EF as [F1 F2]. rewrite absorb_final in AB by assumption. injection AB as AB _. rewrite EW, AV, app_nil_r in AB. subst cs2.
      rewrite app_nil_r in EC. rewrite <- EC. cbn [length]. lia.
    + lia.
  - rewrite AB. lia.
Qed.
Lemma copy_total : forall intr fuel i sc w blen written D, wf i -> ainv D (abs_of i) -> (NORMALIZATION_BUFFER_SIZE <= blen)%nat -> (measure i sc < fuel)%nat ->
  copy_text intr fuel i sc w blen written <> None.
Proof.
  intros intr. induction fuel as [|f IH]; intros i sc w blen written D W I B M; [lia|]. cbn [copy_text].
  destruct (read i sc blen) as [[[r cs] i1] sc1] eqn:ER. pose proof (read_wf _ _ _ _ _ _ _ W ER) as W1.
  destruct (read_progress0 _ _ _ _ _ _ _ _ W I B ER) as [[D' I'] [->|P]]; [discriminate|].
  destruct r as [[|n] s| |]; cbn [std_result].
  - destruct s; [apply (IH _ _ _ _ _ D')|apply (IH _ _ _ _ _ D')|discriminate]; auto; lia.
  - assert (K : forall w1 wr1, copy_text intr f i1 sc1 w1 blen wr1 <> None) by (intros; apply (IH _ _ _ _ _ D'); auto; lia).
    destruct s; destruct (write_text w cs) as [[e|] w1]; try discriminate; apply K.
  - discriminate.
  - destruct intr; [apply (IH _ _ _ _ _ D'); auto; lia|discriminate].
Qed.
Lemma new_ainv : forall nel lsps, ainv [] (abs_of (new_input nel lsps)).
Proof. intros. destruct (abs_new nel lsps) as [-> _]. exact ainv_new. Qed.

(** * Writing the pieces of a text *)
Lemma spec_pieces : forall cr ps d, failed d = false -> outcomes d = [] -> Forall (fun t => t <> []) ps ->
  (fresh d = true -> starts_ok (concat ps)) ->
  spec_ops cr d (map OpWriteText ps) =
    (map (fun _ => true) ps, mkdoc (text d ++ concat ps) (sent d ++ as_sent cr (concat ps)) (match ps with [] => fresh d | _ => false end) false []).
Proof.
  intros cr. induction ps as [|t ps IH]; intros d HF HO HN HS.
  - cbn [map spec_ops concat]. rewrite app_nil_r. replace (as_sent cr []) with (@nil N) by (destruct cr; reflexivity). rewrite app_nil_r.
    destruct d as [a b c e o]. cbn in *. now subst.
  - inversion HN as [|? ? H1 H2]; subst. cbn [map spec_ops spec_op]. unfold spec_write_text. rewrite HF. unfold spec_send.
    replace (fresh d && negb (opt_all is_basic_text_start (head_opt t))) with false.
    2:{ destruct (fresh d); [|reflexivity]. destruct t as [|c t]; [congruence|]. cbn. rewrite (HS eq_refl c (t ++ concat ps) eq_refl). reflexivity. }
    rewrite HO. rewrite IH; cbn [failed outcomes fresh text sent]; auto; [|discriminate].
    cbn [concat]. rewrite as_sent_app, !app_assoc. destruct ps; reflexivity.
Qed.
Lemma pieces_substr : forall ps, is_basic_text_substr (concat ps) = true -> Forall (fun t => t <> []) ps -> Forall plain_op (map OpWriteText ps).
Proof.
  induction ps as [|t ps IH]; intros H N; [constructor|]. inversion N; subst. cbn [concat] in H. cbn [map]. constructor.
  - split; [assumption|]. exact (proj1 (substr_app _ _ H)).
  - apply IH; [|assumption]. apply (substr_slice (concat ps) (t ++ concat ps)); [|exact H]. exists t, []. now rewrite app_nil_r.
Qed.
Lemma received_substr : forall nel lsps script sizes rs j rest, reads (new_input nel lsps) script sizes = (rs, j, rest) -> no_fail script ->
  is_basic_text_substr (received rs) = true /\ starts_ok (received rs).
Proof. intros nel lsps script sizes rs j rest H NF. rewrite (received_delivered _ _ _ _ _ _ (wf_new nel lsps) NF H). eapply delivered_substr; eauto. Qed.
Lemma reads_valid : forall sizes i sc rs j sc', wf i -> no_fail sc -> legal_sizes sizes -> reads i sc sizes = (rs, j, sc') ->
  Forall (fun r => fst r <> RInvalid /\ fst r <> RErr) rs.
Proof.
  induction sizes as [|b sizes IH]; intros i sc rs j sc' W NF L H; cbn [reads] in H.
  - injection H as <- <- <-. constructor.
  - inversion L as [|? ? L1 L2]; subst. destruct (read i sc b) as [[[r cs] i1] sc1] eqn:ER. destruct (reads i1 sc1 sizes) as [[rs' j'] sc2] eqn:ERS. injection H as <- <- <-.
    destruct (read_no_fail _ _ _ _ _ _ _ W NF ER) as (A & _ & NF1). constructor; [|eapply (IH _ _ _ _ _ (read_wf _ _ _ _ _ _ _ W ER)); eauto].
    split; [|exact A]. cbn. intros ->. destruct (read_spec _ _ _ _ _ _ _ W ER) as (_ & _ & _ & C).
    destruct C as [(_ & X & _)|[(X & _)|[(X & _)|(raw & s' & new & cs2 & _ & _ & _ & _ & _ & _ & _ & [(X & _)|(X & _)])]]]; try discriminate.
    unfold NORMALIZATION_BUFFER_SIZE, MAX_UTF8_SIZE, NORMALIZATION_BUFFER_LEN in X. lia.
Qed.
Lemma legal_repeat : forall b k, (136 <= b)%nat -> legal_sizes (repeat b k).
Proof. intros b k H. apply Forall_forall. intros x K. apply repeat_spec in K. now subst. Qed.

(** * copy_text copies what the reader delivers *)
Theorem copy_text_copies : forall nel lsps script blen cr p, no_fail script -> (136 <= blen)%nat ->
  exists n, forall fuel, (n <= fuel)%nat -> exists k rs j rest w,
    reads (new_input nel lsps) script (repeat blen k) = (rs, j, rest) /\ reached_end rs /\
    copy_text false fuel (new_input nel lsps) script (new_writer cr false (mksink p [] false)) blen 0 = Some (CopyOk (str_len (received rs)), j, rest, w) /\
    emitted (inner w) = p ++ as_sent cr (received rs) /\ exists w', close w = (None, w') /\ emitted (inner w') = emitted (inner w).
Proof.
  intros nel lsps script blen cr p NF B. exists (S (measure (new_input nel lsps) script)). intros fuel HF.
  set (w0 := new_writer cr false (mksink p [] false)).
  destruct (copy_text false fuel (new_input nel lsps) script w0 blen 0) as [[[[res j] rest] w]|] eqn:EC.
  2:{ exfalso. refine (copy_total false fuel _ _ w0 blen 0 [] (wf_new nel lsps) (new_ainv nel lsps) _ _ EC); [exact B|lia]. }
  destruct (copy_trace _ _ _ _ _ _ _ _ _ _ _ (wf_new nel lsps) EC) as (k & rs & outs & R & D & T).
  destruct (texts_received _ _ _ _ _ _ (wf_new nel lsps) R) as [TR TN]. destruct (received_substr _ _ _ _ _ _ _ R NF) as [SS ST].
  assert (PL : Forall plain_op (map OpWriteText (texts rs))) by (apply pieces_substr; [now rewrite TR|exact TN]).
  destruct (ops_refine _ cr _ _ (new_refines cr p []) PL) as [O1 O2]. fold w0 in O1, O2. rewrite D in O1, O2.
  assert (SP : fresh (new_doc p []) = true -> starts_ok (concat (texts rs))) by (intros _; now rewrite TR).
  rewrite (spec_pieces cr (texts rs) (new_doc p []) eq_refl eq_refl TN SP) in O1, O2.
  cbn [fst snd text sent new_doc app] in O1, O2. rewrite TR in O2.
  assert (ALL : Forall (eq None) outs).
  { clear -O1. revert O1. generalize (texts rs). induction outs as [|o outs IH]; intros l H; [constructor|].
    destruct l as [|t l]; [discriminate|]. cbn in H. injection H as H1 H2. constructor; [now destruct o|eapply IH; eauto]. }
  pose proof (reads_valid _ _ _ _ _ _ (wf_new nel lsps) NF (legal_repeat blen k B) R) as RV.
  destruct res as [n| |e]; cbn [trace_ok] in T.
  - destruct T as (T1 & _ & ->). cbn [Nat.add]. assert (RE : reached_end rs) by (destruct T1 as [rs' ->]; now exists rs', 0%nat, []).
    exists k, rs, j, rest, w. split; [exact R|]. split; [exact RE|]. split; [reflexivity|].
    assert (EM : emitted (inner w) = p ++ as_sent cr (received rs)) by apply O2. split; [exact EM|].
    destruct (session_is_text _ _ _ _ _ _ _ R NF RE) as [_ LT].
    destruct (op_refines cr _ _ OpClose O2 I) as [C1 C2]. cbn [do_op spec_op] in C1, C2. unfold spec_close in C1, C2. cbn [failed text] in C1, C2.
    assert (K : ok (fst (close w)) = true /\ emitted (inner (snd (close w))) = p ++ as_sent cr (received rs)).
    { destruct LT as [E |[u E]]; rewrite E in *.
      - cbn in C1, C2. split; [exact C1|]. apply C2.
      - rewrite last_opt_snoc in C1, C2. change (10 =? 10) with true in C1, C2. cbv iota in C1, C2. split; [exact C1|]. apply C2. }
    destruct (close w) as [[e|] w']; cbn in K; [destruct K; discriminate|]. exists w'. split; [reflexivity|]. destruct K as [_ ->]. now rewrite EM.
  - exfalso. destruct T as (_ & rs' & r & cs & -> & T). apply Forall_app in RV. destruct RV as [_ RV]. inversion RV as [|? ? [V1 V2] _]; subst. cbn in V1, V2.
    destruct T; congruence.
  - exfalso. destruct T as (outs' & -> & _). apply Forall_app in ALL. destruct ALL as [_ ALL]. inversion ALL; discriminate.
Qed.

(** * With failures of either side *)
Lemma texts_plain : forall rs, is_basic_text_substr (delivered rs) = true -> Forall (fun t => t <> []) (texts rs) -> Forall plain_op (map OpWriteText (texts rs)).
Proof.
  induction rs as [|[r cs] rs IH]; intros H N; [constructor|]. cbn [delivered flat_map snd] in H. fold (delivered rs) in H. apply substr_app in H. destruct H as [H1 H2].
  cbn [texts flat_map fst snd] in *. fold (texts rs) in *. destruct r as [[|n] s| |]; cbn [app] in *; auto. inversion N; subst. cbn [map]. constructor; [now split|auto].
Qed.
Definition prefix_of (a b : list N) : Prop := exists c, b = a ++ c.
Lemma spec_pieces_prefix : forall cr ps d bs d', failed d = false -> spec_ops cr d (map OpWriteText ps) = (bs, d') ->
  prefix_of (sent d') (sent d ++ as_sent cr (concat ps)) /\ (Forall (eq true) bs -> sent d' = sent d ++ as_sent cr (concat ps)).
Proof.
  intros cr. induction ps as [|t ps IH]; intros d bs d' HF H.
  - cbn in H. injection H as <- <-. replace (as_sent cr (concat [])) with (@nil N) by (destruct cr; reflexivity). rewrite app_nil_r.
    split; [exists []; now rewrite app_nil_r|auto].
  - cbn [map spec_ops spec_op] in H. destruct (spec_write_text cr d t) as [b d1] eqn:E1. destruct (spec_ops cr d1 (map OpWriteText ps)) as [bs1 d2] eqn:E2. injection H as <- <-.
    unfold spec_write_text in E1. rewrite HF in E1.
    assert (STUCK : forall ps d bs d', failed d = true -> spec_ops cr d (map OpWriteText ps) = (bs, d') -> d' = d).
    { clear. induction ps as [|t ps IH]; intros d bs d' HF H; cbn [map spec_ops spec_op] in H; [now injection H|].
      unfold spec_write_text in H. rewrite HF in H. destruct (spec_ops cr d (map OpWriteText ps)) as [bs1 d1] eqn:E. injection H as _ <-. eapply IH; eauto. }
    assert (BAD : forall d1, failed d1 = true -> b = false -> spec_ops cr d1 (map OpWriteText ps) = (bs1, d2) -> prefix_of (sent d1) (sent d ++ as_sent cr (concat (t :: ps))) ->
      prefix_of (sent d2) (sent d ++ as_sent cr (concat (t :: ps))) /\ (Forall (eq true) (b :: bs1) -> sent d2 = sent d ++ as_sent cr (concat (t :: ps)))).
    { intros d3 F3 -> E3 P. rewrite (STUCK _ _ _ _ F3 E3). split; [exact P|]. intro K; inversion K; discriminate. }
    unfold spec_send in E1. destruct (fresh d && negb (opt_all is_basic_text_start (head_opt t))).
    + injection E1 as <- <-. apply (BAD (fail d)); auto. cbn [sent fail]. now eexists.
    + assert (GOOD : b = true -> sent d1 = sent d ++ as_sent cr t -> failed d1 = false ->
        prefix_of (sent d2) (sent d ++ as_sent cr (concat (t :: ps))) /\ (Forall (eq true) (b :: bs1) -> sent d2 = sent d ++ as_sent cr (concat (t :: ps)))).
      { intros -> S1 F1. destruct (IH _ _ _ F1 E2) as (P1 & P2). cbn [concat]. rewrite as_sent_app, app_assoc, <- S1. split; [exact P1|].
        intro K. inversion K; subst. auto. }
      destruct (outcomes d) as [|[|m] o].
      * injection E1 as <- <-. now apply GOOD.
      * injection E1 as <- <-. now apply GOOD.
      * injection E1 as <- <-. match type of E2 with spec_ops _ ?x _ = _ => apply (BAD x eq_refl eq_refl E2) end. cbn [sent concat]. rewrite as_sent_app. exists (skipn m (as_sent cr t) ++ as_sent cr (concat ps)).
        rewrite <- !app_assoc. f_equal. rewrite app_assoc. f_equal. symmetry. apply firstn_skipn.
Qed.
Theorem copy_text_any : forall intr nel lsps sc blen cr p o fuel res j rest w,
  copy_text intr fuel (new_input nel lsps) sc (new_writer cr false (mksink p o false)) blen 0 = Some (res, j, rest, w) ->
  exists k rs, reads (new_input nel lsps) sc (repeat blen k) = (rs, j, rest) /\
    prefix_of (emitted (inner w)) (p ++ as_sent cr (received rs)) /\
    match res with
    | CopyOk n => reached_end rs /\ n = str_len (received rs) /\ emitted (inner w) = p ++ as_sent cr (received rs)
    | CopyRead => emitted (inner w) = p ++ as_sent cr (received rs)
    | CopyWrite _ => True
    end.
Proof.
  intros intr nel lsps sc blen cr p o fuel res j rest w EC.
  destruct (copy_trace _ _ _ _ _ _ _ _ _ _ _ (wf_new nel lsps) EC) as (k & rs & outs & R & D & T).
  destruct (texts_received _ _ _ _ _ _ (wf_new nel lsps) R) as [TR TN]. destruct (delivered_substr _ _ _ _ _ _ _ R) as [SS ST].
  pose proof (texts_plain _ SS TN) as PL.
  destruct (ops_refine _ cr _ _ (new_refines cr p o) PL) as [O1 O2]. rewrite D in O1, O2. cbn [fst snd] in O1, O2.
  destruct (spec_ops cr (new_doc p o) (map OpWriteText (texts rs))) as [bs d'] eqn:ES. cbn [fst snd] in O1, O2.
  destruct (spec_pieces_prefix cr (texts rs) (new_doc p o) _ _ eq_refl ES) as (P1 & P2). rewrite TR in P1, P2. cbn [new_doc sent] in P1, P2.
  destruct O2 as (_ & _ & _ & EM & _). exists k, rs. split; [exact R|]. rewrite EM. split; [exact P1|].
  assert (ALL : Forall (eq None) outs -> sent d' = p ++ as_sent cr (received rs)).
  { intro K. apply P2. rewrite <- O1. clear -K. induction K; constructor; [now subst|assumption]. }
  destruct res as [n| |e]; cbn [trace_ok] in T; auto.
  - destruct T as ((rs' & ->) & T2 & ->). split; [now exists rs', 0%nat, []|]. split; [reflexivity|auto].
  - destruct T as [T _]. auto.
Qed.

(** * copy_text_using_status *)
(** A writer at rest on a stream that accepts everything. *)
Definition calm (cr : bool) (em : list N) (w : writer) : Prop :=
  crlf w = cr /\ ansi w = false /\ buffer w = [] /\ inner w = mksink em [] false.
Lemma write_text_calm : forall cr em w s, calm cr em w -> (expect w = true -> starts_ok s) ->
  exists w', write_text w s = (None, w') /\ calm cr (em ++ as_sent cr s) w' /\ expect w' = false /\ wst w' = WGround (text_ground s).
Proof.
  intros cr em [b cr' ex an st es k] s (H1 & H2 & H3 & H4) HS. cbn in *. subst.
  destruct s as [|c s].
  - exists (mkwriter [] cr false false (WGround Newline) es (mksink em [] false)). replace (as_sent cr []) with (@nil N) by (destruct cr; reflexivity). rewrite app_nil_r.
    split; [destruct cr, ex; cbn; now rewrite app_nil_r|]. split; [now repeat split|]. split; reflexivity.
  - rewrite write_text_eq by discriminate. unfold write_buffer. cbn [set_buf set_wst expect buffer crlf app wst after].
    rewrite head_sent. replace (ex && negb (opt_all is_basic_text_start (head_opt (c :: s)))) with false.
    2:{ destruct ex; [|reflexivity]. cbn. now rewrite (HS eq_refl c s eq_refl). }
    eexists. split; [reflexivity|]. split; [now repeat split|]. split; reflexivity.
Qed.
Lemma no_push_tail : forall e t, no_push (e :: t) -> no_push t.
Proof. intros e t H cs K. apply (H cs). now right. Qed.
Lemma read_no_push : forall i sc b r cs j sc', wf i -> no_push sc -> read i sc b = (r, cs, j, sc') -> no_push sc' /\ (forall n, r <> ROk n Push).
Proof.
  intros i sc b r cs j sc' W NP H. split.
  - destruct (read_spec _ _ _ _ _ _ _ W H) as (_ & _ & _ & C).
    assert (K : forall x, inner_read sc = (x, sc') -> no_push sc').
    { intros x EI. destruct sc as [|[c s|] t]; cbn in EI; [injection EI as _ <-; exact NP| |injection EI as _ <-; eapply no_push_tail; eauto].
      destruct s; injection EI as _ <-; [eapply no_push_tail; eauto|eapply no_push_tail; eauto|intros c' []]. }
    destruct C as [(_ & _ & _ & _ & ->)|[(_ & -> & _)|[(_ & EI & _)|(raw & s & new & cs2 & EI & _)]]]; auto; eapply K; eauto.
  - intros n ->. destruct (push_genuine _ _ _ _ _ _ _ H) as [c ->]. apply (NP c). now left.
Qed.
(** The loop gives what the reads give. *)
Lemma status_trace : forall fuel i sc w blen written res i' sc' w' cr em, wf i -> no_fail sc -> no_push sc -> (136 <= blen)%nat -> calm cr em w ->
  (forall k rs j rest, reads i sc (repeat blen k) = (rs, j, rest) -> expect w = true -> starts_ok (received rs)) ->
  copy_status fuel i sc w blen written = Some (res, i', sc', w') ->
  exists k rs, reads i sc (repeat blen k) = (rs, i', sc') /\ reached_end rs /\ res = CopyOk (written + str_len (received rs)) /\
    calm cr (em ++ as_sent cr (received rs)) w' /\ exists n cs rs', rs = rs' ++ [(ROk n End, cs)] /\ wst w' = WGround (text_ground cs).
Proof.
  induction fuel as [|f IH]; intros i sc w blen written res i' sc' w' cr em W NF NP B CA HS H; cbn [copy_status] in H; [discriminate|].
  destruct (read i sc blen) as [[[r cs] i1] sc1] eqn:ER. pose proof (read_wf _ _ _ _ _ _ _ W ER) as W1.
  destruct (read_no_push _ _ _ _ _ _ _ W NP ER) as [NP1 NP2]. destruct (read_no_fail _ _ _ _ _ _ _ W NF ER) as (A1 & _ & NF1).
  assert (R1 : reads i sc (repeat blen 1) = ([(r, cs)], i1, sc1)) by (cbn [repeat reads]; now rewrite ER).
  pose proof (reads_valid _ _ _ _ _ _ W NF (legal_repeat blen 1 B) R1) as RV. inversion RV as [|? ? [RV1 _] _]; subst. cbn in RV1.
  destruct r as [n s| |]; [|congruence|congruence].
  assert (SC : expect w = true -> starts_ok cs).
  { intro X. pose proof (HS _ _ _ _ R1 X) as K. cbn [received flat_map fst snd] in K. now rewrite app_nil_r in K. }
  destruct (write_text_calm _ _ _ cs CA SC) as (w1 & EW & CA1 & EX & ST). rewrite EW in H.
  destruct s; [|exfalso; eapply NP2; reflexivity|].
  - destruct (IH i1 sc1 w1 blen (written + n)%nat res i' sc' w' cr _ W1 NF1 NP1 B CA1) as (k & rs & R & RE & EQ & CA2 & n' & cs' & rs' & E1 & E2); [|exact H|].
    { intros k rs j rest _ X. congruence. }
    apply read_count in ER as EN; [|exact W]. exists (S k), ((ROk n Active, cs) :: rs). cbn [repeat reads]. rewrite ER, R. split; [reflexivity|].
    cbn [received flat_map fst snd]. fold (received rs). split; [destruct RE as (a & b & c & ->); now exists ((ROk n Active, cs) :: a), b, c|].
    rewrite str_len_app, as_sent_app, app_assoc. split; [rewrite EQ; f_equal; lia|]. split; [exact CA2|]. exists n', cs', ((ROk n Active, cs) :: rs'). rewrite E1. auto.
  - injection H as <- <- <- <-. apply read_count in ER as EN; [|exact W]. exists 1%nat, [(ROk n End, cs)]. split; [exact R1|].
    split; [now exists [], n, cs|]. cbn [received flat_map fst snd]. rewrite app_nil_r. split; [now rewrite EN|]. split; [exact CA1|]. exists n, cs, []. auto.
Qed.
Lemma status_total : forall fuel i sc w blen written D, wf i -> ainv D (abs_of i) -> (NORMALIZATION_BUFFER_SIZE <= blen)%nat -> (measure i sc < fuel)%nat ->
  copy_status fuel i sc w blen written <> None.
Proof.
  induction fuel as [|f IH]; intros i sc w blen written D W I B M; [lia|]. cbn [copy_status].
  destruct (read i sc blen) as [[[r cs] i1] sc1] eqn:ER. pose proof (read_wf _ _ _ _ _ _ _ W ER) as W1.
  destruct (read_progress0 _ _ _ _ _ _ _ _ W I B ER) as [[D' I'] [->|P]]; [destruct (write_text w cs) as [[e|] w1]; discriminate|].
  assert (K : forall w1 wr1, copy_status f i1 sc1 w1 blen wr1 <> None) by (intros; apply (IH _ _ _ _ _ D'); auto; lia).
  destruct r as [n s| |]; try discriminate. destruct (write_text w cs) as [[e|] w1]; [discriminate|].
  destruct s; [apply K| |discriminate]. destruct (flush w1) as [[e|] w2]; [discriminate|apply K].
Qed.
Theorem copy_status_copies : forall nel lsps sc blen cr p, no_fail sc -> no_push sc -> (136 <= blen)%nat ->
  exists n, forall fuel, (n <= fuel)%nat -> exists k rs j rest w,
    reads (new_input nel lsps) sc (repeat blen k) = (rs, j, rest) /\ reached_end rs /\
    copy_status fuel (new_input nel lsps) sc (new_writer cr false (mksink p [] false)) blen 0 = Some (CopyOk (str_len (received rs)), j, rest, w) /\
    emitted (inner w) = p ++ as_sent cr (received rs) /\ exists w', close w = (None, w') /\ emitted (inner w') = emitted (inner w).
Proof.
  intros nel lsps sc blen cr p NF NP B. exists (S (measure (new_input nel lsps) sc)). intros fuel HF. set (w0 := new_writer cr false (mksink p [] false)).
  destruct (copy_status fuel (new_input nel lsps) sc w0 blen 0) as [[[[res j] rest] w]|] eqn:EC.
  2:{ exfalso. refine (status_total fuel _ _ w0 blen 0 [] (wf_new nel lsps) (new_ainv nel lsps) _ _ EC); [exact B|lia]. }
  assert (C0 : calm cr p w0) by (split; [|split; [|split]]; reflexivity).
  destruct (status_trace _ _ _ _ _ _ _ _ _ _ cr p (wf_new nel lsps) NF NP B C0 (fun k rs j rest R _ => proj2 (received_substr _ _ _ _ _ _ _ R NF)) EC)
    as (k & rs & R & RE & -> & CA & n & cs & rs' & E1 & E2).
  exists k, rs, j, rest, w. split; [exact R|]. split; [exact RE|]. split; [reflexivity|]. destruct CA as (C1 & C2 & C3 & C4). rewrite C4. split; [reflexivity|].
  destruct (session_is_text _ _ _ _ _ _ _ R NF RE) as [_ LT].
  assert (TG : text_ground cs = Newline).
  { destruct cs as [|c cs _] using rev_ind; [reflexivity|]. unfold text_ground. rewrite last_opt_snoc. rewrite E1 in LT. unfold received in LT. rewrite flat_map_app in LT.
    cbn [flat_map fst snd] in LT. rewrite app_nil_r, app_assoc in LT. destruct LT as [K|[u K]]; [now apply app_eq_nil in K; destruct K|].
    apply app_inj_tail in K. destruct K as [_ ->]. reflexivity. }
  rewrite TG in E2. eexists. unfold close, check_nl. cbn [set_exp wst]. rewrite E2. cbn [and_then set_exp inner]. rewrite C4. cbn. split; [reflexivity|]. cbn. apply app_nil_r.
Qed.
