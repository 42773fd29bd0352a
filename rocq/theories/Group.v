(** The groups in which a BufWriter or a LineWriter of any size passes bytes on (C96, C100). *)
From Coq Require Import NArith Arith List Bool Lia ZifyBool ZifyNat ZifyN.
From Verif Require Import Base Ucd UcdTables Norm Chars TextTables TextUtils UcdFacts NormFacts CharFacts DocTable SpecText TextFacts PipelineFacts DocFacts IsoFacts
  Utf8 Utf8Facts Input Output ReadFacts SpecRead ScalarFacts SpecConv SpecWrite WriteFacts WriteProps Strings StringFacts Copy CopyProps StdIo SpecStd CutProps StdProps
  Lines LineProps LineIo SpecStream StreamProps StringProps ReadInv ReadSession ReadProps ByteProps ReadPieces SpecCat StdBuf SpecBuf BufProps BufWrite SpecLineBuf LineBytes AdaptProps WholeProps StdCopy LineCopy SpecGroup.
Import ListNotations.
Local Open Scope N_scope.
Local Opaque pipeline.

(** Writing several groups of bytes; [None] as soon as one is refused. *)
Fixpoint gsends (w : writer) (gs : list (list N)) : option writer :=
  match gs with
  | [] => Some w
  | g :: t => match write_all w g with Some (None, w1) => gsends w1 t | _ => None end
  end.
Lemma gsends_app : forall a b w, gsends w (a ++ b) = match gsends w a with Some w1 => gsends w1 b | None => None end.
Proof. induction a as [|q a IH]; intros b w; [reflexivity|]. cbn [app gsends]. destruct (write_all w q) as [[[e|] w1]|]; [reflexivity|apply IH|reflexivity]. Qed.
Lemma write_nothing : forall w, write_all w [] = Some (None, w).
Proof. reflexivity. Qed.
Lemma gsends_nil : forall w gs, gsends w ([] :: gs) = gsends w gs.
Proof. reflexivity. Qed.
Definition goutcome (o : option (wresult * bufwriter)) (cap : nat) (ow : option writer) (h : list N) : Prop :=
  match ow with
  | Some w => o = Some (None, mkbw w cap h)
  | None => exists e b, o = Some (Some e, b)
  end.
Lemma g_write : forall w g, match gsends w [g] with
  | Some w1 => write_all w g = Some (None, w1)
  | None => exists e w1, write_all w g = Some (Some e, w1)
  end.
Proof. intros w g. cbn [gsends]. pose proof (write_all_total w g) as T. destruct (write_all w g) as [[[e|] w1]|]; [eauto|reflexivity|congruence]. Qed.
Lemma g_flush : forall w cap h, goutcome (flush_buf (mkbw w cap h)) cap (gsends w [h]) [].
Proof.
  intros w cap h. unfold goutcome, flush_buf. cbn [passed_to room kept]. pose proof (g_write w h) as K. pose proof (flush_write (length h) w h) as F. unfold write_all in K at 1 2.
  destruct (gsends w [h]) as [w1|]; [rewrite K in F; now rewrite F|]. destruct K as (e & w1 & K). rewrite K in F. destruct F as [bs' F]. rewrite F. eauto.
Qed.
Lemma held_spec : forall w cap h p, (length h <= cap)%nat -> goutcome (bw_write_all (mkbw w cap h) p) cap (gsends w (fst (held cap h p))) (snd (held cap h p)).
Proof.
  intros w cap h p L. unfold bw_write_all, held. cbn [passed_to room kept]. cbv zeta.
  destruct (Nat.ltb_spec (length p) (cap - length h)) as [A|A].
  { destruct (Nat.ltb_spec (length p) cap); [|lia]. destruct (Nat.leb_spec (length h + length p) cap); [|lia]. reflexivity. }
  destruct (Nat.ltb_spec (cap - length h) (length p)) as [B|B].
  - pose proof (g_flush w cap h) as F. assert (NL : Nat.leb (length h + length p) cap = false) by (apply Nat.leb_gt; lia). rewrite NL, andb_false_r. unfold goutcome in F.
    destruct (Nat.ltb_spec (length p) cap) as [D|D]; cbn [fst snd].
    + destruct (gsends w [h]) as [w1|]; [|destruct F as (e & b & ->); unfold goutcome; eauto]. rewrite F. cbn [room passed_to kept app]. destruct (Nat.leb_spec cap (length p)); [lia|reflexivity].
    + change [h; p] with ([h] ++ [p]). rewrite gsends_app. destruct (gsends w [h]) as [w1|]; [|destruct F as (e & b & ->); unfold goutcome; eauto]. rewrite F. cbn [room passed_to kept app].
      destruct (Nat.leb_spec cap (length p)); [|lia]. pose proof (g_write w1 p) as K. unfold goutcome. destruct (gsends w1 [p]) as [w2|]; [now rewrite K|]. destruct K as (e & w2 & ->). eauto.
  - cbn [room passed_to kept]. destruct (Nat.leb_spec cap (length p)) as [D|D].
    + assert (Z : length h = 0%nat) by lia. destruct h; [|discriminate]. destruct (Nat.ltb_spec (length p) cap); [lia|]. cbn [andb fst snd]. rewrite gsends_nil.
      pose proof (g_write w p) as K. unfold goutcome. destruct (gsends w [p]) as [w2|]; [now rewrite K|]. destruct K as (e & w2 & ->). eauto.
    + destruct (Nat.ltb_spec (length p) cap); [|lia]. destruct (Nat.leb_spec (length h + length p) cap); [|lia]. reflexivity.
Qed.
Lemma held_room : forall cap h p, (length (snd (held cap h p)) <= cap)%nat.
Proof.
  intros cap h p. unfold held. destruct (Nat.ltb_spec (length p) cap); [|cbn; lia]. destruct (Nat.leb_spec (length h + length p) cap); cbn [andb snd]; rewrite ?app_length; lia.
Qed.
Lemma held_concat : forall cap h p, concat (fst (held cap h p)) ++ snd (held cap h p) = h ++ p.
Proof. intros cap h p. unfold held. destruct (_ && _); [reflexivity|]. destruct (Nat.ltb _ _); cbn [fst snd concat app]; now rewrite ?app_nil_r. Qed.
Lemma held_plain : forall cap h p, ~ In LF h -> ~ In LF p -> ~ In LF (snd (held cap h p)).
Proof. intros cap h p A B. unfold held. destruct (_ && _); cbn [fst snd]; [intro K; apply in_app_or in K; tauto|]. destruct (Nat.ltb _ _); cbn [fst snd]; [exact B|intros []]. Qed.
Lemma held_empty : forall w cap p, gsends w (fst (held cap [] p) ++ [snd (held cap [] p)]) = gsends w [p].
Proof.
  intros w cap p. unfold held. cbn [length app Nat.add]. destruct (Nat.ltb_spec (length p) cap) as [A|A].
  - destruct (Nat.leb_spec (length p) cap); [reflexivity|lia].
  - cbn [andb fst snd app]. rewrite gsends_nil. cbn [gsends]. destruct (write_all w p) as [[[e|] w1]|]; reflexivity.
Qed.
Lemma split_last : forall l p, ~ In LF p -> split_last_lf (l ++ LF :: p) = Some (l ++ [LF], p).
Proof.
  intros l p NI. assert (Z : split_last_lf p = None) by (pose proof (split_parts p) as K; destruct (split_last_lf p) as [[x y]|]; [|reflexivity]; destruct K as (-> & [u ->] & _); exfalso; apply NI; apply in_or_app; left; apply in_or_app; right; now left).
  induction l as [|c l IH]; cbn [app split_last_lf]; [rewrite Z; now rewrite N.eqb_refl|now rewrite IH].
Qed.
Lemma split_none : forall p, ~ In LF p -> split_last_lf p = None.
Proof. intros p NI. pose proof (split_parts p) as K. destruct (split_last_lf p) as [[x y]|]; [|reflexivity]. destruct K as (-> & [u ->] & _). exfalso. apply NI. apply in_or_app. left. apply in_or_app. right. now left. Qed.
Lemma not_ended : forall h, ~ In LF h -> ends_with LF h = false.
Proof.
  intros h NI. destruct h as [|c h] using rev_ind; [reflexivity|]. unfold ends_with. rewrite last_opt_snoc. apply N.eqb_neq. intros ->. apply NI. apply in_or_app. right. now left.
Qed.
Definition write_of (lines : bool) := if lines then lw_write_all else bw_write_all.
Lemma plain_outcome : forall (lines : bool) w cap h p, (length h <= cap)%nat -> (lines = true -> ~ In LF h) -> lines = false \/ ~ In LF p ->
  goutcome (write_of lines (mkbw w cap h) p) cap (gsends w (fst (held cap h p))) (snd (held cap h p)).
Proof.
  intros lines w cap h p L NH NP. destruct lines; [|now apply held_spec]. destruct NP as [NP|NP]; [discriminate|]. cbn [write_of]. unfold lw_write_all. cbn [kept].
  rewrite (split_none _ NP), (not_ended _ (NH eq_refl)). now apply held_spec.
Qed.
Lemma lines_outcome : forall w cap h l p, (length h <= cap)%nat -> ~ In LF p ->
  goutcome (lw_write_all (mkbw w cap h) (l ++ LF :: p)) cap (gsends w (fst (held cap h (l ++ [LF])) ++ [snd (held cap h (l ++ [LF]))] ++ fst (held cap [] p))) (snd (held cap [] p)).
Proof.
  intros w cap h l p L NP. unfold lw_write_all. cbn [kept passed_to room]. rewrite (split_last _ _ NP). set (q := l ++ [LF]). rewrite app_assoc, gsends_app.
  assert (K : goutcome (match h with
      | [] => match write_all w q with Some (r, w0) => Some (r, mkbw w0 cap []) | None => None end
      | _ :: _ => match bw_write_all (mkbw w cap h) q with Some (None, b1) => flush_buf b1 | x => x end
      end) cap (gsends w (fst (held cap h q) ++ [snd (held cap h q)])) []).
  { destruct h as [|x h].
    - rewrite held_empty. pose proof (g_write w q) as G. unfold goutcome. destruct (gsends w [q]) as [w1|]; [now rewrite G|]. destruct G as (e & w1 & ->). eauto.
    - pose proof (held_spec w cap (x :: h) q L) as G. rewrite gsends_app. unfold goutcome in G. destruct (gsends w (fst (held cap (x :: h) q))) as [w1|].
      + rewrite G. apply g_flush.
      + destruct G as (e & b & ->). unfold goutcome. eauto. }
  unfold goutcome in K. destruct (gsends w (fst (held cap h q) ++ [snd (held cap h q)])) as [w1|].
  - rewrite K. apply held_spec. cbn. lia.
  - destruct K as (e & b & ->). unfold goutcome. eauto.
Qed.
Theorem group_run : forall lines cap h ps gs, passed_on lines cap h ps gs -> forall w rs b r w', (length h <= cap)%nat -> (lines = true -> ~ In LF h) ->
  each_write (write_of lines) (mkbw w cap h) ps = Some (rs, b) -> bw_finish b = Some (r, w') ->
  (Forall (fun r => r = None) (rs ++ [r]) <-> exists w1, gsends w gs = Some w1 /\ fst (close w1) = None) /\
  (Forall (fun r => r = None) (rs ++ [r]) -> forall w1, gsends w gs = Some w1 -> snd (close w1) = w').
Proof.
  intros lines cap h ps gs P.
  assert (STEP : forall q rest h2 p ps, (length h2 <= cap)%nat -> (lines = true -> ~ In LF h2) ->
    (forall w rs b r w', (length h2 <= cap)%nat -> (lines = true -> ~ In LF h2) -> each_write (write_of lines) (mkbw w cap h2) ps = Some (rs, b) -> bw_finish b = Some (r, w') ->
      (Forall (fun r => r = None) (rs ++ [r]) <-> exists w1, gsends w rest = Some w1 /\ fst (close w1) = None) /\
      (Forall (fun r => r = None) (rs ++ [r]) -> forall w1, gsends w rest = Some w1 -> snd (close w1) = w')) ->
    forall h w rs b r w', goutcome (write_of lines (mkbw w cap h) p) cap (gsends w q) h2 -> each_write (write_of lines) (mkbw w cap h) (p :: ps) = Some (rs, b) -> bw_finish b = Some (r, w') ->
      (Forall (fun r => r = None) (rs ++ [r]) <-> exists w1, gsends w (q ++ rest) = Some w1 /\ fst (close w1) = None) /\
      (Forall (fun r => r = None) (rs ++ [r]) -> forall w1, gsends w (q ++ rest) = Some w1 -> snd (close w1) = w')).
  { clear. intros q rest h2 p ps L2 N2 IH h w rs b r w' K E F. cbn [each_write] in E. rewrite gsends_app. unfold goutcome in K. destruct (gsends w q) as [w1|].
    + rewrite K in E. destruct (each_write (write_of lines) (mkbw w1 cap h2) ps) as [[rs' b']|] eqn:E2; [|discriminate]. injection E as <- <-.
      destruct (IH _ _ _ _ _ L2 N2 E2 F) as [I1 I2]. cbn [app]. split.
      * rewrite <- I1. split; [intro H; now inversion H|intro H; now constructor].
      * intro H. inversion H; subst. auto.
    + destruct K as (e & b1 & K). rewrite K in E. destruct (each_write (write_of lines) b1 ps) as [[rs' b']|]; [|discriminate]. injection E as <- <-. cbn [app]. split; [split|].
      * intro H. apply Forall_inv in H. discriminate.
      * intros (w3 & H & _). discriminate.
      * intros _ w3 H. discriminate. }
  induction P as [h|h p ps gs NP P IH|h l p ps gs LI NP P IH]; intros w rs b r w' L NH E F.
  - cbn [each_write] in E. injection E as <- <-. cbn [app]. unfold bw_finish in F. pose proof (g_flush w cap h) as K. unfold goutcome in K. destruct (gsends w [h]) as [w1|].
    + rewrite K in F. cbn [passed_to] in F. injection F as F. destruct (close w1) as [r1 w2] eqn:EC. injection F as <- <-. split; [split|].
      * intro H. exists w1. split; [reflexivity|]. rewrite EC. exact (Forall_inv H).
      * intros (w3 & H & H2). injection H as <-. rewrite EC in H2. constructor; [exact H2|constructor].
      * intros _ w3 H. injection H as <-. now rewrite EC.
    + destruct K as (e & b1 & K). rewrite K in F. injection F as <- <-. split; [split|].
      * intro H. apply Forall_inv in H. discriminate.
      * intros (w3 & H & _). discriminate.
      * intros _ w3 H. discriminate.
  - refine (STEP _ gs _ p ps (held_room cap h p) _ IH h w rs b r w' (plain_outcome lines w cap h p L NH NP) E F). intro LI. destruct NP as [NP|NP]; [congruence|]. apply held_plain; auto.
  - rewrite !app_assoc, <- (app_assoc _ _ (fst (held cap [] p))). subst lines.
    refine (STEP _ gs _ (l ++ LF :: p) ps (held_room cap [] p) _ IH h w rs b r w' (lines_outcome w cap h l p L NP) E F). intros _. apply held_plain; [intros []|exact NP].
Qed.
Lemma passed_concat : forall lines cap h ps gs, passed_on lines cap h ps gs -> concat gs = h ++ concat ps.
Proof.
  intros lines cap h ps gs P. induction P as [h|h p ps gs NP P IH|h l p ps gs LI NP P IH]; cbn [concat].
  - now rewrite !app_nil_r.
  - rewrite concat_app, IH, app_assoc, held_concat, <- app_assoc. reflexivity.
  - rewrite !concat_app. cbn [concat]. rewrite app_nil_r, IH. rewrite (app_assoc (concat (fst (held cap h _)))), held_concat. rewrite (app_assoc (concat (fst (held cap [] p)))), held_concat.
    cbn [app]. rewrite <- !app_assoc. reflexivity.
Qed.
Lemma passed_exists : forall lines cap ps h, exists gs, passed_on lines cap h ps gs.
Proof.
  intros lines cap. induction ps as [|p ps IH]; intro h; [eexists; constructor|]. destruct lines.
  - pose proof (split_parts p) as K. destruct (split_last_lf p) as [[l t]|].
    + destruct K as (-> & [u ->] & NI). rewrite <- app_assoc. destruct (IH (snd (held cap [] t))) as [gs P]. eexists. exact (passed_lines true cap h u t ps gs eq_refl NI P).
    + destruct (IH (snd (held cap h p))) as [gs P]. eexists. exact (passed_plain true cap h p ps gs (or_intror K) P).
  - destruct (IH (snd (held cap h p))) as [gs P]. eexists. exact (passed_plain false cap h p ps gs (or_introl eq_refl) P).
Qed.
Lemma passed_unique : forall lines cap h ps gs, passed_on lines cap h ps gs -> forall gs', passed_on lines cap h ps gs' -> gs = gs'.
Proof.
  assert (SP : forall l p l' p', ~ In LF p -> ~ In LF p' -> l ++ LF :: p = l' ++ LF :: p' -> l = l' /\ p = p').
  { intros l p l' p' A B E. pose proof (split_last l p A) as K. rewrite E, (split_last l' p' B) in K. injection K as K1 K2. apply app_inj_tail in K1. destruct K1. auto. }
  intros lines cap h ps gs P. induction P as [h|h p ps gs NP P IH|h l p ps gs LI NP P IH]; intros gs' P'.
  - now inversion P'.
  - inversion P' as [|? ? ? g2 NP2 P2|? l2 p2 ? g2 LI2 NP2 P2]; subst; [now rewrite (IH _ P2)|]. exfalso. destruct NP as [NP|NP]; [congruence|]. apply NP. apply in_or_app. right. now left.
  - inversion P' as [|? ? ? g2 NP2 P2|? l2 p2 ? g2 LI2 NP2 P2 EH [E]]; subst.
    + exfalso. destruct NP2 as [NP2|NP2]; [congruence|]. apply NP2. apply in_or_app. right. now left.
    + destruct (SP _ _ _ _ NP2 NP E) as [-> ->]. now rewrite (IH _ P2).
Qed.
(** * In terms of [wrote_each] *)
Lemma gsends_each : forall gs w w1, gsends w gs = Some w1 <-> wrote_each w gs None w1.
Proof.
  induction gs as [|g gs IH]; intros w w1; cbn [gsends].
  - split; [intro H; injection H as <-; constructor|intro H; now inversion H].
  - split.
    + destruct (write_all w g) as [[[e|] w2]|] eqn:E; try discriminate. intro H. apply IH in H. apply write_all_iff in E. econstructor; eauto.
    + intro H. inversion H as [|? ? w2 ? ? H1 H2|]; subst. apply write_all_iff in H1. rewrite H1. now apply IH.
Qed.
Lemma gsends_whole : forall qs w, Forall scalars qs -> gsends w (map encode_all qs) = sends w (flat_map whole qs).
Proof.
  induction qs as [|q qs IH]; intros w S; [reflexivity|]. inversion S as [|? ? S1 S2]; subst. cbn [map flat_map gsends]. rewrite sends_app. pose proof (write_whole w q S1) as K.
  destruct (sends w (whole q)) as [w1|]; [rewrite K; now apply IH|]. destruct K as (e & w1 & ->). reflexivity.
Qed.
Lemma gsends_utf8 : forall gs w w1, gsends w gs = Some w1 -> Forall whole_characters gs.
Proof.
  intros gs w w1 H. apply gsends_each in H. remember None as r eqn:ER. induction H as [|w b t w1 r w' H1 H2 IH|]; [constructor| |discriminate]. subst r. constructor; [|now apply IH].
  remember None as r eqn:ER in H1. destruct H1; try discriminate; [exists []; split; [constructor|reflexivity]|now exists s].
Qed.
Theorem groups_written : forall lines cap ps gs w rs b r w', passed_on lines cap [] ps gs ->
  each_write (write_of lines) (mkbw w cap []) ps = Some (rs, b) -> bw_finish b = Some (r, w') ->
  (Forall (fun r => r = None) (rs ++ [r]) <-> exists w1, wrote_each w gs None w1 /\ fst (close w1) = None) /\
  (Forall (fun r => r = None) (rs ++ [r]) -> forall w1, wrote_each w gs None w1 -> w' = snd (close w1)).
Proof.
  intros lines cap ps gs w rs b r w' P E F. destruct (group_run _ _ _ _ _ P w rs b r w' ltac:(cbn; lia) ltac:(intros _ []) E F) as [K1 K2]. split.
  - rewrite K1. split; intros (w1 & A & B); exists w1; (split; [now apply gsends_each|exact B]).
  - intros H w1 A. symmetry. apply K2; [exact H|now apply gsends_each].
Qed.

(** * Copying through groups *)
Lemma whole_nonempty : forall qs, Forall (fun t => t <> []) (flat_map whole qs).
Proof. induction qs as [|[|c q] qs IH]; cbn [flat_map whole app]; [constructor|exact IH|constructor; [discriminate|exact IH]]. Qed.
Lemma wholes_concat : forall qs, concat (flat_map whole qs) = concat qs.
Proof. induction qs as [|q qs IH]; [reflexivity|]. cbn [flat_map concat]. rewrite concat_app, whole_concat, IH. reflexivity. Qed.
Lemma recopied_whole : forall qs, flat_map recopied (flat_map whole qs) = flat_map recopied qs.
Proof. induction qs as [|[|c q] qs IH]; cbn [flat_map whole app recopied]; [reflexivity|exact IH|]. now rewrite IH. Qed.
Lemma begins_whole : forall qs, Forall begins_assigned (flat_map whole qs) <-> Forall begins_assigned qs.
Proof.
  induction qs as [|[|c q] qs IH]; cbn [flat_map whole app]; [reflexivity| |].
  - rewrite IH. split; [intro H; constructor; [|exact H]|intro H; now inversion H]. intros c u K. discriminate.
  - split; intro H; inversion H; subst; (constructor; [assumption|now apply IH]).
Qed.
Theorem pieces_sent : forall (bom cr : bool) qs t, string_ok t -> line_terminated t -> preceded t -> concat qs = t ->
  exists w1, sends (new_writer cr false (below bom)) (flat_map whole qs) = Some w1 /\ fst (close w1) = None /\
    emitted (inner (snd (close w1))) = (if bom then [0xFEFF] else []) ++ as_sent cr (flat_map recopied qs).
Proof.
  intros bom cr qs t SK LT PR E. set (ps := flat_map whole qs). assert (CP : concat ps = t) by (unfold ps; now rewrite wholes_concat). pose proof (whole_nonempty qs) as TN. fold ps in TN.
  unfold below. set (p := if bom then [0xFEFF] else []). set (w0 := new_writer cr false (mksink p [] false)).
  destruct SK as (SU & ST & _). apply substr_spec in SU.
  assert (PL : Forall plain_op (map OpWriteText ps)) by (apply pieces_substr; [now rewrite CP|exact TN]). rewrite Forall_map in PL. cbn [plain_op] in PL.
  apply prec_ok_spec in PR. rewrite <- CP in PR. apply prec_pieces in PR.
  assert (FM : flat_map pipeline ps = flat_map recopied ps).
  { clear -PL PR. revert PL PR. induction ps as [|q ps IH]; intros PL PR; [reflexivity|]. inversion PL as [|? ? [NE SB] PL2]; inversion PR as [|? ? [h HP] PR2]; subst. cbn [flat_map].
    rewrite (pipeline_recopied q h SB HP), IH; auto. }
  assert (AL : Forall (fun t => t <> [] /\ forallb allowedb t = true) ps).
  { eapply Forall_impl; [|exact PL]. intros q [NE SB]. split; [exact NE|]. apply all_allowed. now apply substr_ok_iff in SB. }
  assert (PO : Forall plain_op (map OpWriteStr ps)) by (apply Forall_map; apply Forall_forall; intros; exact Logic.I).
  destruct (ops_refine _ cr _ _ (new_refines cr p []) PO) as [O1 O2]. fold w0 in O1, O2.
  assert (SP : fresh (new_doc p []) = true -> starts_ok (concat ps)) by (intros _; now rewrite CP).
  rewrite (spec_strs cr ps (new_doc p []) eq_refl eq_refl AL SP) in O1, O2. cbn [fst snd text sent new_doc app] in O1, O2. rewrite FM in O2.
  assert (SE : exists w1, sends w0 ps = Some w1 /\ snd (do_ops w0 (map OpWriteStr ps)) = w1).
  { clear -O1. revert O1. generalize w0. induction ps as [|q ps IH]; intros w H; cbn [map do_ops do_op sends] in *; [now exists w|].
    destruct (write_str w q) as [r w2]. destruct (do_ops w2 (map OpWriteStr ps)) as [rs w3] eqn:ED. cbn [fst snd map] in *. injection H as H1 H2. destruct r as [e|]; [discriminate|].
    destruct (IH w2) as (w4 & A & B); [now rewrite ED|]. exists w4. rewrite ED in B. auto. }
  destruct SE as (w1 & S1 & S2). exists w1. split; [exact S1|]. rewrite S2 in O2. rewrite <- CP in LT. pose proof (recopied_lines _ TN LT) as LT2.
  destruct (op_refines cr _ _ OpClose O2 Logic.I) as [C1 C2]. cbn [do_op spec_op] in C1, C2. unfold spec_close in C1, C2. cbn [failed text] in C1, C2.
  assert (K : ok (fst (close w1)) = true /\ emitted (inner (snd (close w1))) = p ++ as_sent cr (flat_map recopied ps)).
  { destruct LT2 as [X |[u X]]; rewrite X in *.
    - cbn in C1, C2. split; [exact C1|]. apply C2.
    - rewrite last_opt_snoc in C1, C2. change (10 =? 10) with true in C1, C2. cbv iota in C1, C2. split; [exact C1|]. apply C2. }
  destruct K as [K1 K2]. split; [destruct (fst (close w1)); [discriminate|reflexivity]|]. rewrite K2. unfold ps. now rewrite recopied_whole.
Qed.
Lemma whole_all : forall gs, Forall whole_characters gs -> exists qs, Forall scalars qs /\ gs = map encode_all qs.
Proof.
  intros gs F. induction F as [|g gs (s & S & ->) F (qs & Q & ->)]; [exists []; split; [constructor|reflexivity]|]. exists (s :: qs). split; [now constructor|reflexivity].
Qed.
Lemma encode_concat : forall qs, concat (map encode_all qs) = encode_all (concat qs).
Proof. induction qs as [|q qs IH]; [reflexivity|]. cbn [map concat]. now rewrite encode_all_app, IH. Qed.
(** A text that needs no change, its bytes cut anywhere, through a buffer of any size. *)
Theorem grouped_text : forall lines cap (bom cr : bool) ps gs t rs b r w, string_ok t -> line_terminated t -> preceded t -> scalars t -> concat ps = encode_all t ->
  passed_on lines cap [] ps gs -> each_write (write_of lines) (mkbw (new_writer cr false (below bom)) cap []) ps = Some (rs, b) -> bw_finish b = Some (r, w) ->
  (Forall (fun r => r = None) (rs ++ [r]) <-> Forall whole_characters gs) /\
  (forall qs, Forall scalars qs -> gs = map encode_all qs ->
    emitted (inner w) = (if bom then [0xFEFF] else []) ++ as_sent cr (flat_map recopied qs) /\
    (emitted (inner w) = (if bom then [0xFEFF] else []) ++ as_sent cr t <-> Forall begins_assigned qs)).
Proof.
  intros lines cap bom cr ps gs t rs b r w SK LT PR SC CP P E F.
  destruct (group_run _ _ _ _ _ P _ rs b r w ltac:(cbn; lia) ltac:(intros _ []) E F) as [K1 K2]. pose proof (passed_concat _ _ _ _ _ P) as GC. cbn [app] in GC. rewrite CP in GC.
  assert (Q : forall qs, Forall scalars qs -> gs = map encode_all qs -> concat qs = t /\ exists w1, gsends (new_writer cr false (below bom)) gs = Some w1 /\ fst (close w1) = None /\
    emitted (inner (snd (close w1))) = (if bom then [0xFEFF] else []) ++ as_sent cr (flat_map recopied qs)).
  { intros qs S ->. rewrite encode_concat in GC. assert (X : concat qs = t) by (apply encode_all_inj; [now apply Forall_concat|exact SC|exact GC]). split; [exact X|].
    rewrite (gsends_whole _ _ S). exact (pieces_sent bom cr qs t SK LT PR X). }
  assert (IFF : Forall (fun r => r = None) (rs ++ [r]) <-> Forall whole_characters gs).
  { rewrite K1. split.
    - intros (w1 & A & _). exact (gsends_utf8 _ _ _ A).
    - intro H. destruct (whole_all _ H) as (qs & S & EQ). destruct (Q qs S EQ) as (_ & w1 & A & B & _). eauto. }
  split; [exact IFF|]. intros qs S EQ. destruct (Q qs S EQ) as (CQ & w1 & A & B & C).
  assert (H : Forall (fun r => r = None) (rs ++ [r])) by (apply K1; eauto). rewrite <- (K2 H _ A), C. split; [reflexivity|]. rewrite <- CQ, <- (recopied_sent cr).
  split; [intro K; now apply app_inv_head in K|now intros ->].
Qed.
Lemma copy_stops : forall n j b o r1 b1 oks o1 c, buf_reads b (repeat n j ++ [n]) = (r1 ++ [BOk []], b1) -> ~ In (BOk []) r1 -> ~ In BErr r1 ->
  each_write lw_write_all o (pieces_of r1) = Some (oks, o1) -> ~ Forall (fun r => r = None) oks ->
  forall fuel, (j < fuel)%nat -> exists e b2 o2, buf_copy fuel n b o c = Some (CopyWrite e, b2, o2).
Proof.
  intros n. induction j as [|j IH]; intros b o r1 b1 oks o1 c R NE NB W OK fuel L; (destruct fuel as [|f]; [lia|]); cbn [repeat app buf_reads buf_copy] in *.
  - destruct (buf_read b n) as [r b2]. assert (E : r1 = []) by (destruct r1 as [|x r1]; [reflexivity|destruct r1; discriminate]).
    subst r1. cbn in W. injection W as <- <-. exfalso. apply OK. constructor.
  - destruct (buf_read b n) as [r b2] eqn:E1. destruct (buf_reads b2 (repeat n j ++ [n])) as [rs' b3] eqn:E2. destruct r1 as [|x r1].
    + cbn in W. injection W as <- <-. exfalso. apply OK. constructor.
    + injection R as -> E ->. subst rs'. assert (NE1 : ~ In (BOk []) r1) by (intro K; apply NE; now right). assert (NB1 : ~ In BErr r1) by (intro K; apply NB; now right). assert (LF1 : (j < f)%nat) by lia.
      destruct x as [bs| |].
      * cbn [pieces_of flat_map app each_write] in W. destruct (lw_write_all o bs) as [[r o2]|] eqn:EW; [|discriminate]. change (flat_map _ r1) with (pieces_of r1) in W.
        destruct (each_write lw_write_all o2 (pieces_of r1)) as [[oks2 o3]|] eqn:E3; [|discriminate]. injection W as <- <-.
        destruct bs as [|y bs]; [destruct NE; now left|]. destruct r as [e|]; [eauto|].
        refine (IH _ _ _ _ _ _ _ E2 NE1 NB1 E3 _ f LF1). intro K. apply OK. now constructor.
      * exact (IH _ _ _ _ _ _ _ E2 NE1 NB1 W OK f LF1).
      * destruct NB. now left.
Qed.
Theorem copy_groups : forall nel lsps script cap n lc (bom cr : bool) t, (136 <= cap)%nat -> (0 < n)%nat -> no_fail script -> scalar_stream script -> gives nel lsps script t ->
  exists m ps gs, ps = pieces_of (fst (buf_reads (new_bufreader nel lsps script cap) (repeat n m))) /\ concat ps = encode_all t /\ Forall (fun p => 0 < length p <= n)%nat ps /\ passed_on true lc [] ps gs /\
  exists k, forall fuel, (k <= fuel)%nat -> exists res b o r w,
    buf_copy fuel n (new_bufreader nel lsps script cap) (mkbw (new_writer cr false (below bom)) lc []) 0 = Some (res, b, o) /\ bw_finish o = Some (r, w) /\
    (res = CopyOk (str_len t) /\ r = None <-> Forall whole_characters gs) /\
    (forall qs, Forall scalars qs -> gs = map encode_all qs ->
      emitted (inner w) = (if bom then [0xFEFF] else []) ++ as_sent cr (flat_map recopied qs) /\
      (emitted (inner w) = (if bom then [0xFEFF] else []) ++ as_sent cr t <-> Forall begins_assigned qs)).
Proof.
  intros nel lsps script cap n lc bom cr t C N0 NF SS G. destruct (buffered_ends nel lsps script cap C) as [k K].
  destruct (buf_reads (new_bufreader nel lsps script cap) (repeat n k)) as [rs b0] eqn:R0.
  assert (I : In (BOk []) rs) by (apply (K (repeat n k) rs b0); [now rewrite repeat_length|apply Forall_forall; intros x HX; apply repeat_spec in HX; now subst x|exact R0]).
  destruct (first_end _ _ _ _ _ R0 I) as (j & r1 & b1 & LJ & R & NE).
  destruct (buffered_end _ _ _ _ _ _ _ _ C N0 R) as (ns & xs & j1 & rest & LS & RD & RE & EB).
  destruct (received_is_prefix _ _ _ _ _ _ _ _ NF G RD) as [_ ET]. specialize (ET RE). rewrite <- ET in EB.
  assert (NB : ~ In BErr r1) by (intro X; apply (buffered_no_error _ _ _ _ _ _ _ C NF R); apply in_or_app; now left).
  assert (R2 : exists b2, buf_reads (new_bufreader nel lsps script cap) (repeat n j) = (r1, b2)).
  { clear -R. revert R. generalize (new_bufreader nel lsps script cap). revert r1 b1. induction j as [|j IH]; intros r1 b1 b R; cbn [repeat app buf_reads] in *.
    - destruct (buf_read b n) as [r b2]. destruct r1 as [|x r1]; [now exists b|]. destruct r1; discriminate.
    - destruct (buf_read b n) as [r b2]. destruct (buf_reads b2 (repeat n j ++ [n])) as [rs' b3] eqn:E. destruct r1 as [|x r1].
      + exfalso. injection R as _ -> _. clear -E. destruct j; cbn [repeat app buf_reads] in E; destruct (buf_read b2 n) as [p q]; [discriminate|]. destruct (buf_reads q (repeat n j ++ [n])); discriminate.
      + injection R as -> -> ->. destruct (IH _ _ _ E) as [b4 E4]. rewrite E4. now exists b4. }
  destruct R2 as [b2 R2]. pose proof (pieces_short _ _ _ _ _ _ _ _ _ _ _ (session_new nel lsps script cap) C R2) as PS.
  assert (CP : concat (pieces_of r1) = encode_all t) by (rewrite pieces_concat; exact EB).
  assert (PN : Forall (fun p => 0 < length p <= n)%nat (pieces_of r1)).
  { clear -PS NE. induction r1 as [|[bs| |] r1 IH]; cbn [pieces_of flat_map app] in *; [constructor| | |].
    - inversion PS as [|? ? P1 P2]; subst. constructor; [|apply IH; [intro X; apply NE; now right|exact P2]]. destruct bs; [destruct NE; now left|]. cbn [length] in *. lia.
    - apply IH; [intro X; apply NE; now right|exact PS].
    - apply IH; [intro X; apply NE; now right|exact PS]. }
  destruct (passed_exists true lc (pieces_of r1) []) as [gs P]. exists j, (pieces_of r1), gs. split; [now rewrite R2|]. split; [exact CP|]. split; [exact PN|]. split; [exact P|].
  assert (OK : (string_ok t /\ line_terminated t) /\ preceded t /\ scalars t).
  { destruct G as (s0 & x0 & y0 & z0 & G1 & G2 & <-). split; [exact (session_is_text_buffers _ _ _ _ _ _ _ G1 G2)|]. split; [|exact (read_scalar_text _ _ _ _ _ _ _ SS G1)]. destruct (session_end _ _ _ _ _ _ _ G1 G2) as (-> & _). apply converted_preceded. }
  destruct OK as ([SK LT] & PR & SC). set (o0 := mkbw (new_writer cr false (below bom)) lc []).
  pose proof (each_total _ lw_total (pieces_of r1) o0) as T1. destruct (each_write lw_write_all o0 (pieces_of r1)) as [[oks o1]|] eqn:EW; [|now destruct T1].
  pose proof (finish_total o1) as T2. destruct (bw_finish o1) as [[r w]|] eqn:EF; [|now destruct T2].
  destruct (grouped_text true lc bom cr _ _ t oks o1 r w SK LT PR SC CP P EW EF) as [G1 G2].
  exists (S k). intros fuel LFU. assert (LJF : (j < fuel)%nat) by lia.
  assert (D : Forall (fun r => r = None) oks \/ ~ Forall (fun r => r = None) oks).
  { clear. induction oks as [|[e|] oks [IH|IH]]; [left; constructor|right; intro H; inversion H; discriminate|right; intro H; inversion H; discriminate|left; now constructor|right; intro H; apply IH; now inversion H]. }
  destruct D as [D|D].
  - exists (CopyOk (str_len t)), b1, o1, r, w. split; [|split; [exact EF|split]].
    + rewrite (copy_runs _ _ _ _ _ _ _ _ 0 R NE NB EW D) by lia. rewrite EB, encode_all_length. reflexivity.
    + rewrite <- G1. split; [intros [_ ->]; apply Forall_app; split; [exact D|constructor; [reflexivity|constructor]]|]. intro H. apply Forall_app in H. destruct H as [_ H]. split; [reflexivity|exact (Forall_inv H)].
    + exact G2.
  - destruct (copy_stops _ _ _ _ _ _ _ _ 0%nat R NE NB EW D fuel LJF) as (e & b3 & o3 & CE). pose proof (finish_total o3) as T3. destruct (bw_finish o3) as [[r3 w3]|] eqn:EF3; [|now destruct T3].
    assert (NW : ~ Forall whole_characters gs) by (rewrite <- G1; intro H; apply Forall_app in H; tauto).
    exists (CopyWrite e), b3, o3, r3, w3. split; [exact CE|]. split; [exact EF3|]. split.
    + split; [intros [X _]; discriminate|intro X; now destruct NW].
    + intros qs S EQ. exfalso. apply NW. rewrite EQ. apply Forall_map. eapply Forall_impl; [|exact S]. intros s SS2. now exists s.
Qed.
