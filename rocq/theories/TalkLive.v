(** Both ends of a conversation can always hear all that was written (C103). *)
From Coq Require Import NArith Arith List Bool Lia ZifyBool ZifyNat ZifyN.
From Verif Require Import Base Chars TextUtils SpecText Utf8 Utf8Facts Input Output SpecRead ReadFacts ReadInv ReadSession ReadProps SizeProps PipelineFacts TextFacts SpecWrite WriteFacts WriteProps CopyProps Duplex SpecDuplex DuplexProps SpecPrompt Talk SpecTalk TalkProps TalkHeard.
Import ListNotations.
Local Open Scope N_scope.

Lemma talk_app : forall os x y more, talk x y (os ++ more) = let '(r1, e1) := talk x y os in let '(r2, e2) := talk (fst e1) (snd e1) more in (r1 ++ r2, e2).
Proof.
  induction os as [|[w t] os IH]; intros x y more; cbn [app talk].
  - cbn [fst snd]. now destruct (talk x y more).
  - destruct w.
    + destruct (side_step x y t) as [r x']. rewrite IH. destruct (talk x' y os) as [r1 e1]. destruct (talk (fst e1) (snd e1) more) as [r2 e2]. reflexivity.
    + destruct (side_step y x t) as [r y']. rewrite IH. destruct (talk x y' os) as [r1 e1]. destruct (talk (fst e1) (snd e1) more) as [r2 e2]. reflexivity.
Qed.
Lemma ops_at_app : forall w a b, ops_at w (a ++ b) = ops_at w a ++ ops_at w b. Proof. intros. apply flat_map_app. Qed.
Lemma results_at_app : forall w a b, results_at w (a ++ b) = results_at w a ++ results_at w b. Proof. intros. apply flat_map_app. Qed.

(** * A status is kept only after a push or an end *)
Lemma reads_nil : forall sizes i rs j rest, wf i -> reads i [] sizes = (rs, j, rest) -> rest = [].
Proof.
  induction sizes as [|b sizes IH]; intros i rs j rest W H; cbn [reads] in H; [now injection H as _ _ <-|]. destruct (read i [] b) as [[[r cs] i1] sc1] eqn:ER. destruct (reads i1 sc1 sizes) as [[rs1 j1] sc2] eqn:ES. injection H as <- <- <-.
  rewrite (read_none _ _ _ _ _ _ ER) in ES. apply (IH _ _ _ _ (read_wf _ _ _ _ _ _ _ W ER) ES).
Qed.
Lemma reads_pending : forall sizes i sc rs j rest, wf i -> pending i = Active -> Forall (fun e => match e with Chunk _ Active => True | _ => False end) sc -> reads i sc sizes = (rs, j, rest) -> rest <> [] -> pending j = Active.
Proof.
  induction sizes as [|b sizes IH]; intros i sc rs j rest W P F H NE; cbn [reads] in H; [now injection H as _ <- _|]. destruct (read i sc b) as [[[r cs] i1] sc1] eqn:ER. destruct (reads i1 sc1 sizes) as [[rs1 j1] sc2] eqn:ES. injection H as <- <- <-.
  pose proof (read_wf _ _ _ _ _ _ _ W ER) as W1. destruct (read_spec _ _ _ _ _ _ _ W ER) as (_ & _ & _ & C).
  destruct C as [(_ & _ & _ & -> & ->)|[(_ & -> & _ & _ & _ & _ & C)|[(_ & EI & _ & _ & _ & _ & PP & _)|(raw & s & n1 & cs2 & EI & _ & _ & _ & _ & _ & _ & C)]]].
  - exact (IH _ _ _ _ _ W P F ES NE).
  - apply (IH _ _ _ _ _ W1) with (4 := NE) (3 := ES); [|exact F]. destruct C as [[_ ->]|(_ & -> & _)]; [exact P|reflexivity].
  - destruct sc as [|[c [| |]|] sc]; cbn in EI; try discriminate EI. pose proof (Forall_inv F) as K. destruct K.
  - destruct sc as [|e sc]; [cbn in EI; injection EI as _ _ <-; exfalso; apply NE; exact (reads_nil _ _ _ _ _ W1 ES)|]. inversion F as [|? ? F1 F2]; subst. destruct e as [c [| |]|]; try destruct F1. cbn in EI. injection EI as _ <- <-.
    apply (IH _ _ _ _ _ W1) with (4 := NE) (3 := ES); [|exact F2]. destruct C as [(_ & _ & ->)|(_ & -> & _)]; reflexivity.
Qed.

(** * One more read *)
Lemma one_more : forall nel lsps cr an o os rs e w b m r me', talk (at_start nel lsps cr an o true) (at_start nel lsps cr an o false) os = (rs, e) ->
  Forall (fun x => x <> DOut OpAbandon) (ops_at w os) -> calm_line w os -> closes_last (negb w) os -> (136 <= b)%nat -> (length (emitted (inner (dout (here (end_of (negb w) e))))) <= m)%nat ->
  side_step (end_of w e) (end_of (negb w) e) (TRead b (Some (m, Active))) = (r, me') ->
  exists s cs, r = DGot (ROk (str_len cs) s) cs /\ (taken me' = length (emitted (inner (dout (here (end_of (negb w) e))))) \/ cs <> []).
Proof.
  intros nel lsps cr an o os rs e w b m r me' H NA CL CC B M ST. destruct (end_follows _ _ _ _ _ _ _ _ w H) as (sc & [A TX C D E] & K). specialize (K CL). set (me := end_of w e) in *. set (you := end_of (negb w) e) in *.
  cbn [side_step do_dop] in ST. unfold duplex_read in ST. cbn [din dout dscript] in ST. destruct (read (din (here me)) (offer me you (Some (m, Active))) b) as [[[x cs] i] sc'] eqn:ER. cbn [dscript] in ST.
  assert (W : wf (din (here me))).
  { specialize (A []). pose proof (duplex_reads _ _ _ _ A NA) as R. cbn [din dscript new_duplexer] in R. exact (proj1 (reads_spec _ _ _ _ _ _ (wf_new _ _) R)). }
  assert (RR : r = DGot x cs) by (destruct sc'; [destruct (offer me you (Some (m, Active))) as [|[c s|] [|y l]]|]; injection ST as <- _; reflexivity). subst r.
  assert (NO : exists s, x = ROk (str_len cs) s).
  { destruct (read_spec _ _ _ _ _ _ _ W ER) as (_ & _ & _ & Q). rewrite nbs_136 in Q. destruct Q as [(_ & L & _)|[(-> & _)|[(_ & EI & _)|(raw & s & n1 & cs2 & _ & _ & _ & _ & _ & _ & _ & [(-> & _)|(-> & _)])]]]; eauto; [lia|].
    unfold offer in EI. destruct (over me); cbn in EI; discriminate. }
  destruct NO as [s ->]. exists s, cs. split; [reflexivity|].
  unfold offer in ER, ST. destruct (over me) eqn:OV.
  - left. destruct (end_is_last _ _ _ _ _ _ _ _ w H CC OV) as [_ AR]. unfold all_arrived in AR. fold me you in AR. destruct sc'; injection ST as <-; exact AR.
  - destruct (read_one _ _ _ _ _ _ _ ER) as [[-> _]|[-> _]].
    + right. assert (P : pending (din (here me)) = Active).
      { specialize (A [Chunk [] Active]). pose proof (duplex_reads _ _ _ _ A NA) as R. cbn [din dscript new_duplexer] in R. apply (reads_pending _ _ _ _ _ _ (wf_new _ _) eq_refl) with (2 := R); [|discriminate].
        apply Forall_app. split; [|constructor; [exact I|constructor]]. rewrite Forall_forall in K |- *. intros ev IN. specialize (K ev IN). destruct ev as [c [| |]|]; auto.
        cut (existsb is_end sc = true); [congruence|]. apply existsb_exists. exists (Chunk c End). auto. }
      destruct (read_spec _ _ _ _ _ _ _ W ER) as (_ & _ & _ & Q). destruct Q as [(Q & _)|[(_ & _ & _ & _ & _ & _ & [[Q _]|(Q & _)])|[(Q & _)|(raw & s' & n1 & cs2 & EI & _)]]]; try discriminate Q; [exact Q|rewrite P in Q; discriminate Q|]. cbn in EI. discriminate EI.
    + left. injection ST as <-. cbn [taken]. rewrite firstn_length. unfold incoming. rewrite skipn_length. lia.
Qed.
Lemma no_writes_app : forall w a b, no_writes w a -> no_writes w b -> no_writes w (a ++ b). Proof. intros w a b A B. apply Forall_app. auto. Qed.
Lemma closes_snoc : forall w os t, closes_last (negb w) os -> closes_last (negb w) (os ++ [(w, t)]).
Proof.
  intros w os t C a b E. destruct b as [|z b _] using rev_ind; [constructor|]. assert (E2 : os = a ++ (negb w, TOut OpClose) :: b /\ (w, t) = z) by (apply app_inj_tail; now rewrite E, <- app_assoc). destruct E2 as [E2 <-].
  apply no_writes_app; [exact (C _ _ E2)|]. constructor; [|constructor]. intro K. destruct w; discriminate K.
Qed.

(** * Reading until all is heard *)
Lemma listen_snoc : forall w b m k, listen w b m (S k) = listen w b m k ++ [(w, TRead b (Some (m, Active)))].
Proof. intros. unfold listen. induction k as [|k IH]; [reflexivity|]. cbn [repeat app] in *. now rewrite <- IH. Qed.
Theorem talk_delivered : forall nel lsps cr an o os rs e w b m k, talk (at_start nel lsps cr an o true) (at_start nel lsps cr an o false) os = (rs, e) ->
  Forall (fun x => x <> DOut OpAbandon) (ops_at w os) -> calm_line w os -> closes_last (negb w) os ->
  an (negb w) = false -> Forall plain_dop (ops_at (negb w) os) -> all_written (negb w) rs ->
  let sent := written (ops_at (negb w) os) in string_ok sent -> Forall (fun c => is_assigned c = true) sent -> line_terminated sent ->
  (136 <= b)%nat -> (length (emitted (inner (dout (here (end_of (negb w) e))))) <= m)%nat -> (str_len sent + 2 <= k)%nat ->
  heard w (fst (talk (at_start nel lsps cr an o true) (at_start nel lsps cr an o false) (os ++ listen w b m k))) = sent.
Proof.
  intros nel lsps cr an o os rs e w b m k H NA CL CC AN P AW sent OK AS LT B M KB.
  set (T := fun k => talk (at_start nel lsps cr an o true) (at_start nel lsps cr an o false) (os ++ listen w b m k)).
  assert (ES : ended_text sent = sent) by (destruct LT as [->|[t ->]]; [reflexivity|]; unfold ended_text; rewrite last_opt_snoc; reflexivity).
  assert (OW : forall k, ops_at (negb w) (listen w b m k) = []) by (clear; induction k as [|k IH]; [reflexivity|]; unfold ops_at, listen in *; cbn [repeat flat_map]; rewrite IH; destruct w; reflexivity).
  assert (OM : forall k, ops_at w (listen w b m k) = repeat (DRead b) k) by (clear; induction k as [|k IH]; [reflexivity|]; unfold ops_at, listen in *; cbn [repeat flat_map]; rewrite IH; destruct w; reflexivity).
  assert (INV : forall k, let '(rs', e') := T k in
    Forall (fun x => x <> DOut OpAbandon) (ops_at w (os ++ listen w b m k)) /\ calm_line w (os ++ listen w b m k) /\ closes_last (negb w) (os ++ listen w b m k) /\
    ops_at (negb w) (os ++ listen w b m k) = ops_at (negb w) os /\ results_at (negb w) rs' = results_at (negb w) rs /\ end_of (negb w) e' = end_of (negb w) e).
  { clear k KB. induction k as [|k IH].
    - unfold T. cbn [listen repeat]. rewrite app_nil_r, H. repeat (split; [assumption || reflexivity|]). reflexivity.
    - unfold T in *. rewrite listen_snoc, app_assoc, talk_app. destruct (talk (at_start nel lsps cr an o true) (at_start nel lsps cr an o false) (os ++ listen w b m k)) as [r1 e1]. destruct IH as (I1 & I2 & I3 & I4 & I5 & I6).
      assert (TK : exists r e2, talk (fst e1) (snd e1) [(w, TRead b (Some (m, Active)))] = ([(w, r)], e2) /\ end_of (negb w) e2 = end_of (negb w) e1).
      { cbn [talk]. destruct w; destruct (side_step _ _ _) as [r x]; exists r; eexists; split; reflexivity. }
      destruct TK as (r & e2 & -> & EY). rewrite (ops_at_app w), (ops_at_app (negb w)), results_at_app.
      assert (Z1 : ops_at w [(w, TRead b (Some (m, Active)))] = [DRead b]) by (destruct w; reflexivity). assert (Z2 : ops_at (negb w) [(w, TRead b (Some (m, Active)))] = []) by (destruct w; reflexivity).
      assert (Z3 : results_at (negb w) [(w, r)] = []) by (destruct w; reflexivity). rewrite Z1, Z2, Z3, !app_nil_r.
      split; [apply Forall_app; split; [exact I1|]; constructor; [discriminate|constructor]|]. split; [apply Forall_app; split; [exact I2|]; constructor; [intros _; exact I|constructor]|]. split; [exact (closes_snoc w _ _ I3)|].
      split; [exact I4|]. split; [exact I5|]. now rewrite EY. }
  assert (PRE : forall k, exists more, sent = heard w (fst (T k)) ++ more).
  { intro j. specialize (INV j). destruct (T j) as [rs' e'] eqn:ET. destruct INV as (I1 & I2 & I3 & I4 & I5 & I6). cbn [fst]. unfold T in ET.
    pose proof (talk_heard _ _ _ _ _ _ _ _ w ET I1 I2 I3 AN) as TH. rewrite I4 in TH. unfold all_written in TH. rewrite I5 in TH. destruct (TH P AW OK AS) as [X _]. fold sent in X. rewrite ES in X. exact X. }
  assert (STEP : forall k, heard w (fst (T k)) = sent \/ (k <= str_len (heard w (fst (T k))) + (if (taken (end_of w (snd (T k))) =? length (emitted (inner (dout (here (end_of (negb w) e))))))%nat then 1 else 0))%nat).
  { clear k KB. induction k as [|k IH]; [right; lia|].
    pose proof (INV k) as IK. pose proof (INV (S k)) as IK1. pose proof (PRE (S k)) as PK. unfold T in IH, IK, IK1, PK |- *. rewrite listen_snoc, app_assoc, talk_app in IK1, PK |- *.
    destruct (talk (at_start nel lsps cr an o true) (at_start nel lsps cr an o false) (os ++ listen w b m k)) as [r1 e1] eqn:ET. destruct IK as (I1 & I2 & I3 & I4 & I5 & I6).
    destruct (side_step (end_of w e1) (end_of (negb w) e1) (TRead b (Some (m, Active)))) as [r me'] eqn:ST.
    assert (TK : exists e2, talk (fst e1) (snd e1) [(w, TRead b (Some (m, Active)))] = ([(w, r)], e2) /\ end_of w e2 = me' /\ end_of (negb w) e2 = end_of (negb w) e1).
    { cbn [talk]. destruct w; cbn [negb end_of] in ST |- *; rewrite ST; eexists; (split; [reflexivity|]); split; reflexivity. }
    destruct TK as (e2 & TK & EM & EY). rewrite TK in *. cbn [fst snd] in *. destruct IK1 as (J1 & J2 & J3 & J4 & J5 & J6).
    rewrite <- I6 in M. destruct (one_more _ _ _ _ _ _ _ _ w b m r me' ET I1 I2 I3 B M ST) as (s & cs & -> & ALT).
    assert (HD : heard w (r1 ++ [(w, DGot (ROk (str_len cs) s) cs)]) = heard w r1 ++ cs).
    { unfold heard. rewrite results_at_app. assert (RW : results_at w [(w, DGot (ROk (str_len cs) s) cs)] = [DGot (ROk (str_len cs) s) cs]) by (destruct w; reflexivity). rewrite RW. unfold read_results. rewrite flat_map_app. cbn [flat_map app]. unfold received. rewrite flat_map_app. cbn. now rewrite app_nil_r. }
    rewrite HD in *. destruct PK as [more PK]. rewrite EM, str_len_app. rewrite <- I6, <- EY.
    assert (DONE : (str_len cs + 4 <= b)%nat -> taken me' = length (emitted (inner (dout (here (end_of (negb w) e2))))) -> heard w r1 ++ cs = sent).
    { intros ROOM ALL. rewrite <- HD. assert (FULL : talk (at_start nel lsps cr an o true) (at_start nel lsps cr an o false) ((os ++ listen w b m k) ++ [(w, TRead b (Some (m, Active)))]) = (r1 ++ [(w, DGot (ROk (str_len cs) s) cs)], e2)) by (rewrite talk_app, ET, TK; reflexivity).
      pose proof (talk_prompt _ _ _ _ _ _ _ _ w FULL J1 J2) as TP. rewrite J4 in TP. unfold all_written in TP. rewrite J5 in TP. apply (fun a l => proj1 (TP a l AN P AW OK AS) LT).
      - unfold all_arrived. now rewrite EM.
      - exists (read_sizes (ops_at w (os ++ listen w b m k))), b, (read_results (results_at w r1)), (str_len cs), s, cs. split; [|split; [|exact ROOM]].
        + rewrite ops_at_app. unfold read_sizes. rewrite flat_map_app. f_equal. destruct w; reflexivity.
        + rewrite results_at_app. unfold read_results. rewrite flat_map_app. f_equal. destruct w; reflexivity. }
    assert (MONO : heard w r1 = sent -> heard w r1 ++ cs = sent).
    { intro EQ. rewrite EQ, <- app_assoc in PK. rewrite <- (app_nil_r sent) in PK at 1. apply app_inv_head in PK. symmetry in PK. apply app_eq_nil in PK. destruct PK as [-> _]. now rewrite EQ, app_nil_r. }
    destruct IH as [IH|IH]; [left; exact (MONO IH)|].
    assert (PC : cs <> [] -> (1 <= str_len cs)%nat) by (intro NC; destruct cs as [|c cs']; [congruence|]; cbn; pose proof (utf8_len_pos c); lia).
    destruct ALT as [ALT|ALT].
    - rewrite <- EY in ALT. destruct (Nat.le_gt_cases (str_len cs + 4) b) as [RM|RM]; [left; exact (DONE RM ALT)|]. right. rewrite <- I6 in IH. destruct (_ =? _)%nat; destruct (_ =? _)%nat; lia.
    - specialize (PC ALT). destruct (Nat.eqb_spec (taken (end_of w e1)) (length (emitted (inner (dout (here (end_of (negb w) e))))))) as [E1|N1]; [|right; lia].
      destruct (Nat.eqb_spec (taken me') (length (emitted (inner (dout (here (end_of (negb w) e2)))))))  as [E2|N2]; [right; lia|]. exfalso. apply N2. rewrite EY, I6 in *.
      cbn [side_step] in ST. destruct (do_dop _ _) as [r0 d]. unfold offer, incoming in ST. rewrite <- I6, E1 in ST. destruct (over (end_of w e1)).
      + destruct (dscript d); injection ST as _ <-; cbn [taken]; rewrite ?E1, ?I6; reflexivity.
      + destruct (dscript d); injection ST as _ <-; cbn [taken]; [|rewrite ?E1, ?I6; reflexivity]. rewrite firstn_length, skipn_length, ?E1, ?I6. lia. }
  destruct (STEP k) as [Q|Q]; [exact Q|]. exfalso. destruct (PRE k) as [more PK]. apply (f_equal str_len) in PK. rewrite str_len_app in PK. destruct (_ =? _)%nat in Q; lia.
Qed.
