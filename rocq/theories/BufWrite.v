(** std::io::BufWriter and LineWriter over a TextWriter. *)
From Coq Require Import NArith Arith List Bool Lia ZifyBool ZifyNat ZifyN.
From Verif Require Import Base Ucd UcdTables Norm Chars TextTables TextUtils UcdFacts NormFacts CharFacts DocTable SpecText TextFacts PipelineFacts DocFacts IsoFacts
  Utf8 Utf8Facts Input Output ReadFacts SpecRead ScalarFacts SpecConv SpecWrite WriteFacts WriteProps Strings StringFacts Copy CopyProps StdIo SpecStd CutProps StdProps
  Lines LineProps LineIo SpecStream StreamProps StdBuf SpecBuf.
Import ListNotations.
Local Open Scope N_scope.
Arguments N.add : simpl never.
Arguments N.leb : simpl never.
Arguments N.ltb : simpl never.
Arguments N.eqb : simpl never.
Local Opaque pipeline.

(** * Nothing gets stuck *)
Lemma write_bytes_none : forall w bs r w', write_bytes w bs = (None, r, w') -> r <> None.
Proof.
  intros w bs r w' H. unfold write_bytes in H. destruct (decode bs) as [cs rest]. destruct rest as [|x rest]; [|destruct cs as [|c cs]; [injection H as <- <-; discriminate|]].
  - destruct (write_str w cs) as [[e|] w1]; injection H as H1 H2; subst; discriminate.
  - destruct (write_str w (c :: cs)) as [[e|] w1]; injection H as H1 H2; subst; discriminate.
Qed.
Lemma flush_write : forall f w bs, match write_all_go f w bs with
  | Some (None, w') => flush_go f w bs = Some (None, w', [])
  | Some (Some e, w') => exists bs', flush_go f w bs = Some (Some e, w', bs')
  | None => flush_go f w bs = None
  end.
Proof.
  induction f as [|f IH]; intros w bs; destruct bs as [|b bs]; cbn [write_all_go flush_go]; try reflexivity.
  destruct (write_bytes w (b :: bs)) as [[[[|n]|] r] w'] eqn:E; [reflexivity|apply IH|]. apply write_bytes_none in E. destruct r as [e|]; [eauto|congruence].
Qed.
Lemma flush_total : forall b, flush_buf b <> None.
Proof.
  intros b H. unfold flush_buf in H. pose proof (flush_write (length (kept b)) (passed_to b) (kept b)) as K. pose proof (write_all_total (passed_to b) (kept b)) as T. unfold write_all in T.
  destruct (write_all_go _ _ _) as [[[e|] w']|]; [destruct K as [bs' K]| |congruence]; rewrite K in H; discriminate.
Qed.
Lemma bw_total : forall b bs, bw_write_all b bs <> None.
Proof.
  intros b bs H. unfold bw_write_all in H. cbv zeta in H. destruct (Nat.ltb _ _); [discriminate|]. destruct (Nat.ltb _ _).
  - pose proof (flush_total b) as F. destruct (flush_buf b) as [[[e|] b1]|]; try congruence. destruct (Nat.leb _ _); [|discriminate].
    pose proof (write_all_total (passed_to b1) bs). destruct (write_all (passed_to b1) bs) as [[r w]|]; congruence.
  - destruct (Nat.leb _ _); [|discriminate]. pose proof (write_all_total (passed_to b) bs). destruct (write_all (passed_to b) bs) as [[r w]|]; congruence.
Qed.
Lemma lw_total : forall b bs, lw_write_all b bs <> None.
Proof.
  intros b bs H. unfold lw_write_all in H. destruct (split_last_lf bs) as [[l t]|].
  - destruct (kept b) as [|x k].
    + pose proof (write_all_total (passed_to b) l). destruct (write_all (passed_to b) l) as [[[e|] w]|]; try congruence. now apply bw_total in H.
    + pose proof (bw_total b l). destruct (bw_write_all b l) as [[[e|] b1]|]; try congruence. pose proof (flush_total b1). destruct (flush_buf b1) as [[[e|] b2]|]; try congruence. now apply bw_total in H.
  - destruct (ends_with LF (kept b)); [|now apply bw_total in H]. pose proof (flush_total b). destruct (flush_buf b) as [[[e|] b2]|]; try congruence. now apply bw_total in H.
Qed.
Lemma each_total : forall f, (forall b bs, f b bs <> None) -> forall ps b, each_write f b ps <> None.
Proof.
  intros f T. induction ps as [|p ps IH]; intro b; cbn [each_write]; [discriminate|]. specialize (T b p). destruct (f b p) as [[r b']|]; [|congruence]. specialize (IH b').
  destruct (each_write f b' ps) as [[rs b'']|]; congruence.
Qed.
Lemma finish_total : forall b, bw_finish b <> None.
Proof. intros b. unfold bw_finish. pose proof (flush_total b). destruct (flush_buf b) as [[[e|] b1]|]; congruence. Qed.

(** * The strings passed on *)
Definition whole (s : list N) : list (list N) := match s with [] => [] | _ => [s] end.
Lemma whole_concat : forall s, concat (whole s) = s.
Proof. intros [|c s]; [reflexivity|]. cbn. now rewrite app_nil_r. Qed.
(** Writing several strings; [None] as soon as one is refused. *)
Fixpoint sends (w : writer) (qs : list (list N)) : option writer :=
  match qs with
  | [] => Some w
  | q :: t => match write_str w q with (None, w1) => sends w1 t | _ => None end
  end.
Lemma sends_app : forall a b w, sends w (a ++ b) = match sends w a with Some w1 => sends w1 b | None => None end.
Proof. induction a as [|q a IH]; intros b w; [reflexivity|]. cbn [app sends]. destruct (write_str w q) as [[e|] w1]; [reflexivity|apply IH]. Qed.
(** What BufWriter passes on when it holds [h] and [p] is written, and what it holds then. *)
Definition bstep (cap : nat) (h p : list N) : list (list N) * list N :=
  let spare := (cap - str_len h)%nat in
  if Nat.ltb (str_len p) spare then ([], h ++ p)
  else let '(q, h1) := if Nat.ltb spare (str_len p) then (whole h, []) else ([], h) in
       if Nat.leb cap (str_len p) then (q ++ whole p, h1) else (q, h1 ++ p).
(** An outcome: success, or refusal by the writer. *)
Definition outcome (o : option (wresult * bufwriter)) (cap : nat) (ow : option writer) (h : list N) : Prop :=
  match ow with
  | Some w => o = Some (None, mkbw w cap (encode_all h))
  | None => exists e b, o = Some (Some e, b)
  end.
Lemma write_whole : forall w s, scalars s -> match sends w (whole s) with
  | Some w1 => write_all w (encode_all s) = Some (None, w1)
  | None => exists e w1, write_all w (encode_all s) = Some (Some e, w1)
  end.
Proof.
  intros w s S. destruct s as [|c s]; [reflexivity|]. cbn [whole sends]. rewrite (write_all_text w (c :: s) S) by discriminate. destruct (write_str w (c :: s)) as [[e|] w1]; eauto.
Qed.
Lemma flush_whole : forall w cap h, scalars h -> outcome (flush_buf (mkbw w cap (encode_all h))) cap (sends w (whole h)) [].
Proof.
  intros w cap h S. unfold outcome, flush_buf. cbn [passed_to room kept]. pose proof (write_whole w h S) as K. pose proof (flush_write (length (encode_all h)) w (encode_all h)) as F. unfold write_all in K.
  destruct (sends w (whole h)) as [w1|]; [rewrite K in F; now rewrite F|]. destruct K as (e & w1 & K). rewrite K in F. destruct F as [bs' F]. rewrite F. eauto.
Qed.
Lemma bstep_spec : forall w cap h p, scalars h -> scalars p ->
  outcome (bw_write_all (mkbw w cap (encode_all h)) (encode_all p)) cap (sends w (fst (bstep cap h p))) (snd (bstep cap h p)).
Proof.
  intros w cap h p SH SP. unfold bw_write_all, bstep. cbn [passed_to room kept]. cbv zeta. rewrite !encode_all_length.
  destruct (Nat.ltb (str_len p) (cap - str_len h)) eqn:E1; [cbn [fst snd sends outcome]; now rewrite encode_all_app|].
  assert (LAST : forall w1 h1 (q : list (list N)), sends w q = Some w1 ->
    outcome (if Nat.leb cap (str_len p) then match write_all w1 (encode_all p) with Some (r, w2) => Some (r, mkbw w2 cap (encode_all h1)) | None => None end
             else Some (None, mkbw w1 cap (encode_all h1 ++ encode_all p))) cap
      (sends w (fst (if Nat.leb cap (str_len p) then (q ++ whole p, h1) else (q, h1 ++ p)))) (snd (if Nat.leb cap (str_len p) then (q ++ whole p, h1) else (q, h1 ++ p)))).
  { intros w1 h1 q Q. destruct (Nat.leb cap (str_len p)); cbn [fst snd]; [|rewrite Q; cbn; now rewrite encode_all_app]. rewrite sends_app, Q. pose proof (write_whole w1 p SP) as K.
    unfold outcome. destruct (sends w1 (whole p)) as [w2|]; [now rewrite K|]. destruct K as (e & w2 & ->). eauto. }
  destruct (Nat.ltb (cap - str_len h) (str_len p)) eqn:E2.
  - pose proof (flush_whole w cap h SH) as F. destruct (sends w (whole h)) as [w1|] eqn:ES; unfold outcome in F.
    + rewrite F. cbn [room passed_to kept]. exact (LAST w1 [] (whole h) ES).
    + destruct F as (e & b & ->). destruct (Nat.leb cap (str_len p)); cbn [fst snd]; rewrite ?sends_app, ES; unfold outcome; eauto.
  - cbn [room passed_to kept]. exact (LAST w h [] eq_refl).
Qed.
Lemma str_len_nil : forall s, str_len s = 0%nat -> s = []. Proof. exact str_len_zero. Qed.
Lemma bstep_concat : forall cap h p, concat (fst (bstep cap h p)) ++ snd (bstep cap h p) = h ++ p.
Proof.
  intros cap h p. unfold bstep. cbv zeta. destruct (Nat.ltb (str_len p) (cap - str_len h)) eqn:E1; [reflexivity|]. destruct (Nat.ltb (cap - str_len h) (str_len p)) eqn:E2.
  - destruct (Nat.leb cap (str_len p)); cbn [fst snd app]; rewrite ?concat_app, !whole_concat, ?app_nil_r; reflexivity.
  - destruct (Nat.leb cap (str_len p)) eqn:E3; cbn [fst snd app concat]; [|reflexivity]. rewrite whole_concat. apply Nat.ltb_ge in E1, E2. apply Nat.leb_le in E3.
    destruct (Nat.eq_dec (str_len h) 0) as [Z|Z]; [apply str_len_zero in Z; subst h; now rewrite app_nil_r|]. assert (Z2 : str_len p = 0%nat) by lia. apply str_len_zero in Z2. subst p. now rewrite app_nil_r.
Qed.
Lemma bstep_nil : forall cap, bstep cap [] [] = ([], []).
Proof. intros cap. unfold bstep. cbv zeta. cbn [str_len]. destruct cap as [|cap]; reflexivity. Qed.
Lemma bstep_shape : forall cap h p, p <> [] ->
  bstep cap h p = ([], h ++ p) \/ bstep cap h p = (whole h, p) \/ bstep cap h p = (whole h ++ [p], []).
Proof.
  intros cap h p NE. unfold bstep. cbv zeta. assert (WP : whole p = [p]) by (destruct p; [congruence|reflexivity]).
  destruct (Nat.ltb (str_len p) (cap - str_len h)) eqn:E1; [auto|]. destruct (Nat.ltb (cap - str_len h) (str_len p)) eqn:E2.
  - rewrite WP. destruct (Nat.leb cap (str_len p)); auto.
  - destruct (Nat.leb cap (str_len p)) eqn:E3; [|auto]. rewrite WP. apply Nat.ltb_ge in E1, E2. apply Nat.leb_le in E3.
    destruct (Nat.eq_dec (str_len h) 0) as [Z|Z]; [apply str_len_zero in Z; subst h; auto|]. assert (Z2 : str_len p = 0%nat) by lia. apply str_len_zero in Z2. congruence.
Qed.
Lemma bstep_fits : forall cap h p, (str_len h + str_len p < cap)%nat -> bstep cap h p = ([], h ++ p).
Proof. intros cap h p L. unfold bstep. cbv zeta. destruct (Nat.ltb_spec (str_len p) (cap - str_len h)); [reflexivity|lia]. Qed.

(** * Any buffering *)
Section Buffering.
Variable cap : nat.
Variable f : bufwriter -> list N -> option (wresult * bufwriter).
Variable step : list N -> list N -> list (list N) * list N.
Hypothesis f_spec : forall w h p, scalars h -> scalars p -> outcome (f (mkbw w cap (encode_all h)) (encode_all p)) cap (sends w (fst (step h p))) (snd (step h p)).
Hypothesis step_concat : forall h p, concat (fst (step h p)) ++ snd (step h p) = h ++ p.
Fixpoint plan (h : list N) (ps : list (list N)) : list (list N) :=
  match ps with
  | [] => whole h
  | p :: t => fst (step h p) ++ plan (snd (step h p)) t
  end.
Lemma plan_concat : forall ps h, concat (plan h ps) = h ++ concat ps.
Proof.
  induction ps as [|p ps IH]; intro h; cbn [plan concat]; [now rewrite whole_concat, app_nil_r|]. rewrite concat_app, IH, app_assoc, step_concat. now rewrite <- app_assoc.
Qed.
Lemma step_scalars : forall h p, scalars h -> scalars p -> scalars (snd (step h p)).
Proof. intros h p SH SP. pose proof (step_concat h p) as E. assert (K : scalars (h ++ p)) by (apply Forall_app; auto). rewrite <- E in K. apply Forall_app in K. apply K. Qed.
Lemma plan_run : forall ps w h rs b r w', scalars h -> Forall scalars ps -> each_write f (mkbw w cap (encode_all h)) (map encode_all ps) = Some (rs, b) -> bw_finish b = Some (r, w') ->
  (Forall (fun r => r = None) (rs ++ [r]) <-> exists w1, sends w (plan h ps) = Some w1 /\ fst (close w1) = None) /\
  (Forall (fun r => r = None) (rs ++ [r]) -> forall w1, sends w (plan h ps) = Some w1 -> snd (close w1) = w').
Proof.
  induction ps as [|p ps IH]; intros w h rs b r w' SH SP E F.
  - cbn [map each_write plan] in *. injection E as <- <-. cbn [app]. unfold bw_finish in F. pose proof (flush_whole w cap h SH) as K. unfold outcome in K. destruct (sends w (whole h)) as [w1|].
    + rewrite K in F. cbn [passed_to] in F. injection F as F. destruct (close w1) as [r1 w2] eqn:EC. injection F as <- <-. split; [split|].
      * intro H. exists w1. split; [reflexivity|]. rewrite EC. exact (Forall_inv H).
      * intros (w3 & H & H2). injection H as <-. rewrite EC in H2. constructor; [exact H2|constructor].
      * intros _ w3 H. injection H as <-. now rewrite EC.
    + destruct K as (e & b1 & K). rewrite K in F. injection F as <- <-. split; [split|].
      * intro H. apply Forall_inv in H. discriminate.
      * intros (w3 & H & _). discriminate.
      * intros _ w3 H. discriminate.
  - inversion SP as [|? ? SP1 SP2]; subst. cbn [map each_write plan] in *. pose proof (f_spec w h p SH SP1) as K. pose proof (step_scalars h p SH SP1) as SH2. rewrite sends_app. unfold outcome in K.
    destruct (sends w (fst (step h p))) as [w1|].
    + rewrite K in E. destruct (each_write f (mkbw w1 cap (encode_all (snd (step h p)))) (map encode_all ps)) as [[rs' b']|] eqn:E2; [|discriminate]. injection E as <- <-.
      destruct (IH _ _ _ _ _ _ SH2 SP2 E2 F) as [I1 I2]. cbn [app]. split.
      * rewrite <- I1. split; [intro H; now inversion H|intro H; now constructor].
      * intro H. inversion H; subst. auto.
    + destruct K as (e & b1 & K). rewrite K in E. destruct (each_write f b1 (map encode_all ps)) as [[rs' b']|]; [|discriminate]. injection E as <- <-. cbn [app]. split; [split|].
      * intro H. apply Forall_inv in H. discriminate.
      * intros (w3 & H & _). discriminate.
      * intros _ w3 H. discriminate.
Qed.
Lemma sends_ops : forall qs w, (Forall (fun r => r = None) (fst (do_ops w (map OpWriteStr qs ++ [OpClose]))) <-> exists w1, sends w qs = Some w1 /\ fst (close w1) = None) /\
  (forall w1, sends w qs = Some w1 -> snd (do_ops w (map OpWriteStr qs ++ [OpClose])) = snd (close w1)).
Proof.
  induction qs as [|q qs IH]; intro w; cbn [map app do_ops do_op sends].
  - destruct (close w) as [r w1] eqn:E. cbn [fst snd]. split; [split|].
    + intro H. exists w. rewrite E. split; [reflexivity|exact (Forall_inv H)].
    + intros (w2 & H & K). injection H as <-. rewrite E in K. constructor; [exact K|constructor].
    + intros w2 H. injection H as <-. now rewrite E.
  - destruct (write_str w q) as [[e|] w1] eqn:E; destruct (IH w1) as [I1 I2]; destruct (do_ops w1 (map OpWriteStr qs ++ [OpClose])) as [rs w2]; cbn [fst snd] in *.
    + split; [split|].
      * intro H. apply Forall_inv in H. discriminate.
      * intros (w3 & H & _). discriminate.
      * discriminate.
    + split; [|exact I2]. rewrite <- I1. split; [intro H; now inversion H|intro H; now constructor].
Qed.
Theorem buffered_stream : forall bom cr ps rs b r w, Forall scalars ps -> line_pieces (plan [] ps) ->
  each_write f (mkbw (new_writer cr false (below bom)) cap []) (map encode_all ps) = Some (rs, b) -> bw_finish b = Some (r, w) ->
  (Forall (fun r => r = None) (rs ++ [r]) <-> strict_stream (concat ps)) /\
  (strict_stream (concat ps) -> emitted (inner w) = (if bom then [0xFEFF] else []) ++ as_sent cr (pipeline (concat ps))).
Proof.
  intros bom cr ps rs b r w SP LP E F. destruct (plan_run ps (new_writer cr false (below bom)) [] rs b r w ltac:(constructor) SP E F) as [K1 K2].
  destruct (do_ops (new_writer cr false (below bom)) (map OpWriteStr (plan [] ps) ++ [OpClose])) as [rs0 w0] eqn:ED.
  destruct (stream_written bom cr _ _ _ LP ED) as [S1 S2]. destruct (sends_ops (plan [] ps) (new_writer cr false (below bom))) as [O1 O2]. rewrite ED in O1, O2. cbn [fst snd] in O1, O2.
  rewrite plan_concat in S1, S2. cbn [app] in S1, S2. assert (IFF : Forall (fun r => r = None) (rs ++ [r]) <-> strict_stream (concat ps)) by (rewrite <- S1, K1, O1; reflexivity).
  split; [exact IFF|]. intro A. pose proof (proj2 IFF A) as H. destruct (proj1 K1 H) as (w1 & W1 & _). rewrite <- (K2 H _ W1), <- (O2 _ W1). apply S2. now apply S1.
Qed.
End Buffering.

(** * Where the plans cut *)
Lemma line_pieces_intro : forall qs q, Forall ended qs -> q <> [] -> line_pieces (qs ++ [q]).
Proof. induction qs as [|x qs IH]; intros q F NE; [now apply lp_one|]. inversion F as [|? ? [u ->] F2]; subst. cbn [app]. apply lp_more. now apply IH. Qed.
Lemma ended_nonnil : forall q, ended q -> q <> [].
Proof. intros q [u ->] H. apply app_eq_nil in H. destruct H; discriminate. Qed.
Lemma line_pieces_whole : forall qs h, Forall ended qs -> qs <> [] \/ h <> [] -> line_pieces (qs ++ whole h).
Proof.
  intros qs [|c h] F N; [|apply line_pieces_intro; [exact F|discriminate]]. cbn [whole]. rewrite app_nil_r. destruct N as [N|N]; [|congruence].
  destruct (exists_last N) as (q' & y & ->). apply Forall_app in F. destruct F as [F1 F2]. apply line_pieces_intro; [exact F1|]. apply ended_nonnil. exact (Forall_inv F2).
Qed.
Lemma line_pieces_app : forall qs t, Forall ended qs -> line_pieces t -> line_pieces (qs ++ t).
Proof. induction qs as [|x qs IH]; intros t F L; [exact L|]. inversion F as [|? ? [u ->] F2]; subst. cbn [app]. apply lp_more. now apply IH. Qed.
Lemma plan_lines : forall step, (forall h p, (h = [] \/ ended h) -> ended p -> Forall ended (fst (step h p)) /\ (snd (step h p) = [] \/ ended (snd (step h p)))) ->
  (forall h p, (h = [] \/ ended h) -> p <> [] -> line_pieces (fst (step h p) ++ whole (snd (step h p)))) ->
  forall ps, line_pieces ps -> forall h, h = [] \/ ended h -> line_pieces (plan step h ps).
Proof.
  intros step S1 S2 ps L. induction L as [s NE|s ps L IH]; intros h H; cbn [plan]; [now apply S2|].
  destruct (S1 h (s ++ [0xA]) H ltac:(now exists s)) as [F N]. apply line_pieces_app; [exact F|]. now apply IH.
Qed.
Lemma whole_ended : forall h, h = [] \/ ended h -> Forall ended (whole h).
Proof. intros [|c h] H; [constructor|]. constructor; [|constructor]. destruct H as [H|H]; [discriminate|exact H]. Qed.
Lemma bstep_ended : forall cap h p, h = [] \/ ended h -> ended p -> Forall ended (fst (bstep cap h p)) /\ (snd (bstep cap h p) = [] \/ ended (snd (bstep cap h p))).
Proof.
  intros cap h p H E. pose proof (whole_ended h H) as W. destruct (bstep_shape cap h p (ended_nonnil p E)) as [->|[->| ->]]; cbn [fst snd].
  - split; [constructor|]. right. destruct E as [u ->]. exists (h ++ u). now rewrite app_assoc.
  - auto.
  - split; [|auto]. apply Forall_app. auto.
Qed.
Lemma bstep_last : forall cap h p, h = [] \/ ended h -> p <> [] -> line_pieces (fst (bstep cap h p) ++ whole (snd (bstep cap h p))).
Proof.
  intros cap h p H NE. pose proof (whole_ended h H) as W. destruct (bstep_shape cap h p NE) as [->|[->| ->]]; cbn [fst snd].
  - apply line_pieces_whole; [constructor|]. right. intro K. apply app_eq_nil in K. now destruct K.
  - apply line_pieces_whole; auto.
  - cbn [whole]. rewrite app_nil_r. now apply line_pieces_intro.
Qed.
Theorem bufwriter_stream : forall bom cr cap ps rs b r w, Forall scalars ps -> line_pieces ps ->
  each_write bw_write_all (mkbw (new_writer cr false (below bom)) cap []) (map encode_all ps) = Some (rs, b) -> bw_finish b = Some (r, w) ->
  (Forall (fun r => r = None) (rs ++ [r]) <-> strict_stream (concat ps)) /\
  (strict_stream (concat ps) -> emitted (inner w) = (if bom then [0xFEFF] else []) ++ as_sent cr (pipeline (concat ps))).
Proof.
  intros bom cr cap ps rs b r w SP LP. apply (buffered_stream cap bw_write_all (bstep cap) (fun w h p => bstep_spec w cap h p) (bstep_concat cap) bom cr ps rs b r w SP).
  apply plan_lines; [apply bstep_ended|apply bstep_last|exact LP|now left].
Qed.

(** * LineWriter *)
Lemma split_no_lf : forall a bs, ~ In LF a -> split_last_lf (a ++ bs) = match split_last_lf bs with Some (l, r) => Some (a ++ l, r) | None => None end.
Proof.
  induction a as [|x a IH]; intros bs NI; cbn [app split_last_lf]; [destruct (split_last_lf bs) as [[l r]|]; reflexivity|]. rewrite IH by (intro K; apply NI; now right).
  destruct (split_last_lf bs) as [[l r]|]; [reflexivity|]. destruct (N.eqb_spec x LF) as [->|]; [exfalso; apply NI; now left|reflexivity].
Qed.
Lemma split_encode : forall s, scalars s -> split_last_lf (encode_all s) = match split_last_lf s with Some (l, r) => Some (encode_all l, encode_all r) | None => None end.
Proof.
  induction s as [|c s IH]; intro SC; [reflexivity|]. inversion SC as [|? ? C1 C2]; subst. specialize (IH C2). change (encode_all (c :: s)) with (encode c ++ encode_all s). cbn [split_last_lf].
  destruct (N.eqb_spec c LF) as [->|NE].
  - change (encode LF) with [LF]. cbn [app split_last_lf]. rewrite IH. destruct (split_last_lf s) as [[l r]|]; [reflexivity|]. rewrite N.eqb_refl. reflexivity.
  - rewrite split_no_lf by (now apply encode_not_LF). rewrite IH. destruct (split_last_lf s) as [[l r]|]; reflexivity.
Qed.
Lemma ends_encode : forall s, scalars s -> ends_with LF (encode_all s) = ends_with LF s.
Proof.
  intros s SC. destruct s as [|c s] using rev_ind; [reflexivity|]. clear IHs. apply Forall_app in SC. destruct SC as [_ SC]. apply Forall_inv in SC. rewrite encode_all_app.
  change (encode_all [c]) with (encode c ++ []). rewrite app_nil_r. destruct (N.eqb_spec c LF) as [->|NE].
  - change (encode LF) with [LF]. now rewrite !LineProps.ends_snoc.
  - pose proof (encode_not_LF c NE SC) as NI. assert (NN : encode c <> []). { intro K. pose proof (encode_all_length [c]) as L. change (encode_all [c]) with (encode c ++ []) in L. rewrite K in L. cbn in L. pose proof (utf8_len_pos c). lia. }
    destruct (exists_last NN) as (u & x & E). rewrite E in *. rewrite app_assoc. unfold ends_with. rewrite !TextFacts.last_opt_snoc.
    transitivity false; [|symmetry; now apply N.eqb_neq]. apply N.eqb_neq. intros ->. apply NI, in_or_app. right. now left.
Qed.
Definition lstep (cap : nat) (h p : list N) : list (list N) * list N :=
  match split_last_lf p with
  | None => if ends_with LF h then (whole h ++ fst (bstep cap [] p), snd (bstep cap [] p)) else bstep cap h p
  | Some (l, t) => (match h with [] => whole l | _ => fst (bstep cap h l) ++ whole (snd (bstep cap h l)) end ++ fst (bstep cap [] t), snd (bstep cap [] t))
  end.
Lemma outcome_seq : forall (g : bufwriter -> option (wresult * bufwriter)) o cap w q1 h1 q2 h2, outcome o cap (sends w q1) h1 ->
  (forall w1, outcome (g (mkbw w1 cap (encode_all h1))) cap (sends w1 q2) h2) ->
  outcome (match o with Some (None, b1) => g b1 | Some (Some e, b1) => Some (Some e, b1) | None => None end) cap (sends w (q1 ++ q2)) h2.
Proof.
  intros g o cap w q1 h1 q2 h2 H1 H2. rewrite sends_app. unfold outcome in H1. destruct (sends w q1) as [w1|]; [rewrite H1; apply H2|]. destruct H1 as (e & b & ->). cbn. eauto.
Qed.
Lemma split_parts : forall s, match split_last_lf s with Some (l, t) => s = l ++ t /\ ended l /\ ~ In LF t | None => ~ In LF s end.
Proof.
  induction s as [|c s IH]; cbn [split_last_lf]; [intros []|]. destruct (split_last_lf s) as [[l t]|].
  - destruct IH as (-> & [u ->] & NI). split; [reflexivity|]. split; [now exists (c :: u)|exact NI].
  - destruct (N.eqb_spec c LF) as [->|NE]; [split; [reflexivity|]; split; [now exists []|exact IH]|]. intros [K|K]; auto.
Qed.
Lemma split_scalars : forall s l t, scalars s -> split_last_lf s = Some (l, t) -> scalars l /\ scalars t.
Proof. intros s l t SC E. pose proof (split_parts s) as P. rewrite E in P. destruct P as (-> & _). now apply Forall_app in SC. Qed.
Lemma lstep_spec : forall w cap h p, scalars h -> scalars p ->
  outcome (lw_write_all (mkbw w cap (encode_all h)) (encode_all p)) cap (sends w (fst (lstep cap h p))) (snd (lstep cap h p)).
Proof.
  intros w cap h p SH SP. unfold lw_write_all, lstep. cbn [kept passed_to room]. rewrite split_encode by exact SP. destruct (split_last_lf p) as [[l t]|] eqn:ES.
  - destruct (split_scalars _ _ _ SP ES) as [SL ST]. cbn [fst snd].
    apply (outcome_seq (fun b1 => bw_write_all b1 (encode_all t)) _ cap w _ []); [|intro w1; exact (bstep_spec w1 cap [] t ltac:(constructor) ST)].
    destruct h as [|c h].
    + cbn [encode_all flat_map]. pose proof (write_whole w l SL) as K. unfold outcome. destruct (sends w (whole l)) as [w1|]; [now rewrite K|]. destruct K as (e & w1 & ->). eauto.
    + destruct (encode_all (c :: h)) as [|x k] eqn:EK; [apply encode_all_nil in EK; discriminate|]. rewrite <- EK.
      apply (outcome_seq flush_buf _ cap w _ (snd (bstep cap (c :: h) l))); [exact (bstep_spec w cap _ l SH SL)|]. intro w1. apply flush_whole.
      pose proof (bstep_concat cap (c :: h) l) as E. assert (K : scalars ((c :: h) ++ l)) by (apply Forall_app; auto). rewrite <- E in K. apply Forall_app in K. apply K.
  - rewrite ends_encode by exact SH. destruct (ends_with LF h); [|exact (bstep_spec w cap h p SH SP)]. cbn [fst snd].
    apply (outcome_seq (fun b1 => bw_write_all b1 (encode_all p)) _ cap w _ []); [now apply flush_whole|intro w1; exact (bstep_spec w1 cap [] p ltac:(constructor) SP)].
Qed.
Lemma lstep_concat : forall cap h p, concat (fst (lstep cap h p)) ++ snd (lstep cap h p) = h ++ p.
Proof.
  intros cap h p. unfold lstep. pose proof (split_parts p) as P. destruct (split_last_lf p) as [[l t]|].
  - destruct P as (-> & _). cbn [fst snd]. rewrite concat_app, <- app_assoc, bstep_concat. cbn [app]. destruct h as [|c h]; [now rewrite whole_concat|]. rewrite concat_app, whole_concat, bstep_concat. now rewrite <- app_assoc.
  - destruct (ends_with LF h); [|apply bstep_concat]. cbn [fst snd]. rewrite concat_app, whole_concat, <- app_assoc, bstep_concat. reflexivity.
Qed.
Lemma lstep_ended : forall cap h p, h = [] \/ ended h -> ended p -> Forall ended (fst (lstep cap h p)) /\ (snd (lstep cap h p) = [] \/ ended (snd (lstep cap h p))).
Proof.
  intros cap h p H E. unfold lstep. pose proof (split_parts p) as P. destruct (split_last_lf p) as [[l t]|].
  - destruct P as (EP & EL & NT). assert (T : t = []).
    { destruct t as [|c t] using rev_ind; [reflexivity|exfalso]. destruct E as [u E]. rewrite EP, app_assoc in E. apply app_inj_tail in E. destruct E as [_ ->]. apply NT, in_or_app. right. now left. }
    subst t. rewrite bstep_nil. cbn [fst snd]. rewrite app_nil_r. split; [|auto]. destruct h as [|c h]; [apply whole_ended; auto|].
    destruct (bstep_ended cap (c :: h) l H EL) as [B1 B2]. apply Forall_app. split; [exact B1|now apply whole_ended].
  - exfalso. destruct E as [u ->]. apply P, in_or_app. right. now left.
Qed.
Lemma bstep_tail : forall cap t qs, Forall ended qs -> qs <> [] \/ t <> [] -> line_pieces (qs ++ fst (bstep cap [] t) ++ whole (snd (bstep cap [] t))).
Proof.
  intros cap t qs F N. destruct t as [|c t]; [rewrite bstep_nil; cbn [fst snd app]; apply line_pieces_whole; [exact F|destruct N; auto]|].
  apply line_pieces_app; [exact F|]. apply bstep_last; [now left|discriminate].
Qed.
Lemma lstep_last : forall cap h p, h = [] \/ ended h -> p <> [] -> line_pieces (fst (lstep cap h p) ++ whole (snd (lstep cap h p))).
Proof.
  intros cap h p H NE. unfold lstep. pose proof (split_parts p) as P. destruct (split_last_lf p) as [[l t]|].
  - destruct P as (EP & EL & NT). cbn [fst snd]. rewrite <- app_assoc. pose proof (ended_nonnil _ EL) as NL. apply bstep_tail; [|left].
    + destruct h as [|c h]; [apply whole_ended; auto|]. destruct (bstep_ended cap (c :: h) l H EL) as [B1 B2]. apply Forall_app. split; [exact B1|now apply whole_ended].
    + intro K. assert (C : concat match h with [] => whole l | _ :: _ => fst (bstep cap h l) ++ whole (snd (bstep cap h l)) end = h ++ l) by (destruct h; [now rewrite whole_concat|]; now rewrite concat_app, whole_concat, bstep_concat).
      rewrite K in C. symmetry in C. apply app_eq_nil in C. destruct C. congruence.
  - destruct (ends_with LF h); [|now apply bstep_last]. cbn [fst snd]. rewrite <- app_assoc. apply bstep_tail; [now apply whole_ended|now right].
Qed.
Theorem linewriter_pieces : forall bom cr cap ps rs b r w, Forall scalars ps -> line_pieces ps ->
  each_write lw_write_all (mkbw (new_writer cr false (below bom)) cap []) (map encode_all ps) = Some (rs, b) -> bw_finish b = Some (r, w) ->
  (Forall (fun r => r = None) (rs ++ [r]) <-> strict_stream (concat ps)) /\
  (strict_stream (concat ps) -> emitted (inner w) = (if bom then [0xFEFF] else []) ++ as_sent cr (pipeline (concat ps))).
Proof.
  intros bom cr cap ps rs b r w SP LP. apply (buffered_stream cap lw_write_all (lstep cap) (fun w h p => lstep_spec w cap h p) (lstep_concat cap) bom cr ps rs b r w SP).
  apply plan_lines; [apply lstep_ended|apply lstep_last|exact LP|now left].
Qed.
Lemma lstep_fits : forall cap h p, ~ In LF h -> (str_len h + str_len p < cap)%nat ->
  Forall ended (fst (lstep cap h p)) /\ ~ In LF (snd (lstep cap h p)).
Proof.
  intros cap h p NH L. unfold lstep. pose proof (split_parts p) as P. destruct (split_last_lf p) as [[l t]|].
  - destruct P as (-> & EL & NT). assert (LL : (str_len (l ++ t) = str_len l + str_len t)%nat) by apply str_len_app. rewrite (bstep_fits cap [] t) by (cbn [str_len]; lia). cbn [fst snd app]. rewrite app_nil_r. split; [|exact NT].
    destruct h as [|c h]; [apply whole_ended; auto|]. rewrite (bstep_fits cap (c :: h) l) by lia. cbn [fst snd app]. apply whole_ended. right. destruct EL as [u ->]. exists (c :: h ++ u). cbn [app]. now rewrite app_assoc.
  - rewrite not_ends by exact NH. rewrite bstep_fits by exact L. cbn [fst snd]. split; [constructor|]. intro K. apply in_app_or in K. tauto.
Qed.
Lemma plan_fits : forall cap ps a h, unfinished (concat a) h -> fits cap (a ++ ps) -> exists qs t, plan (lstep cap) h ps = qs ++ whole t /\ Forall ended qs.
Proof.
  intros cap. induction ps as [|p ps IH]; intros a h U F; cbn [plan]; [exists [], h; auto|].
  pose proof (F a p ps h eq_refl U) as L. destruct (lstep_fits cap h p (proj1 U) L) as [E N].
  destruct (IH (a ++ [p]) (snd (lstep cap h p))) as (qs & t & -> & FQ).
  - split; [exact N|]. destruct U as (_ & u & EU & UE). exists (u ++ concat (fst (lstep cap h p))). split.
    + rewrite concat_app. cbn [concat]. rewrite app_nil_r, EU, <- !app_assoc. now rewrite lstep_concat.
    + destruct (fst (lstep cap h p)) as [|q qs] eqn:EQ using rev_ind; [cbn [concat]; rewrite app_nil_r; exact UE|]. right. apply Forall_app in E. destruct E as [_ E]. apply Forall_inv in E. destruct E as [v ->].
      exists (u ++ concat qs ++ v). rewrite concat_app. cbn [concat]. now rewrite app_nil_r, !app_assoc.
  - now rewrite <- app_assoc.
  - exists (fst (lstep cap h p) ++ qs), t. split; [now rewrite app_assoc|]. apply Forall_app. auto.
Qed.
Theorem linewriter_stream : forall bom cr cap ps rs b r w, Forall scalars ps -> concat ps <> [] -> fits cap ps ->
  each_write lw_write_all (mkbw (new_writer cr false (below bom)) cap []) (map encode_all ps) = Some (rs, b) -> bw_finish b = Some (r, w) ->
  (Forall (fun r => r = None) (rs ++ [r]) <-> strict_stream (concat ps)) /\
  (strict_stream (concat ps) -> emitted (inner w) = (if bom then [0xFEFF] else []) ++ as_sent cr (pipeline (concat ps))).
Proof.
  intros bom cr cap ps rs b r w SP NE F. apply (buffered_stream cap lw_write_all (lstep cap) (fun w h p => lstep_spec w cap h p) (lstep_concat cap) bom cr ps rs b r w SP).
  destruct (plan_fits cap ps [] []) as (qs & t & E & FQ); [split; [intros []|exists []; auto]|exact F|]. rewrite E. apply line_pieces_whole; [exact FQ|].
  pose proof (plan_concat (lstep cap) (lstep_concat cap) ps []) as C. rewrite E in C. cbn [app] in C. destruct qs as [|q qs]; [right|left; discriminate]. intros ->. cbn in C. congruence.
Qed.
