(** Conversations in which an end writes with colours (C103). *)
From Coq Require Import NArith Arith List Bool Lia ZifyBool ZifyNat ZifyN.
From Verif Require LineProps.
From Verif Require Import Base Ucd Norm Chars TextTables TextUtils UcdFacts NormFacts CharFacts SpecText TextFacts PipelineFacts IsoFacts Utf8 Utf8Facts Input Output SpecRead ReadFacts ReadInv ReadSession ReadChunk SpecEscape EscapeFacts EscapeRun ReadProps
  KeepFacts ReadPieces SpecConv ConvFacts ScalarFacts SpecWrite WriteFacts WriteProps WriteColour SpecColour ColourProps SpecFrag FragProps CopyProps Strings StringFacts ConcatFacts EdgeFacts SpecString StringProps LossyProps Fuzz FuzzProps SpecMore CanonProps
  Copy Duplex SpecDuplex DuplexProps DuplexExact SpecDuplexColour DuplexColour SpecCat AdaptProps SpecPrompt PromptProps Talk SpecTalk TalkProps TalkHeard TalkLive.
Import ListNotations.
Local Open Scope N_scope.
Arguments N.add : simpl never.
Arguments N.leb : simpl never.
Arguments N.ltb : simpl never.
Arguments N.eqb : simpl never.
Local Opaque pipeline.

(** * What the end sends *)
Lemma fop_alive : forall cr o d x d', x <> FAbandon -> spec_fop cr o d x = (true, d') -> failed d = false -> failed d' = false.
Proof.
  assert (SD : forall cr d t d', spec_send cr d t = (true, d') -> failed d' = false).
  { intros cr d t d' H. unfold spec_send in H. destruct (_ && _); [discriminate|]. destruct (outcomes d) as [|[|n] q]; inversion H; reflexivity. }
  intros cr o d x d' NA H F. destruct x as [f p h|f|s| | |]; cbn [spec_fop] in H.
  - rewrite F in H. destruct (negb _); [discriminate|]. exact (SD _ _ _ _ H).
  - rewrite F in H. exact (SD _ _ _ _ H).
  - exact (ok_alive cr d (OpWriteText s) d' ltac:(discriminate) H).
  - destruct o; [|discriminate]. exact (ok_alive cr d OpFlush d' ltac:(discriminate) H).
  - destruct o; [|discriminate]. exact (ok_alive cr d OpClose d' ltac:(discriminate) H).
  - now destruct NA.
Qed.
Lemma dfops_alive : forall xs rs cr o d, spec_dresults cr o d xs rs -> dfops_ok o xs rs -> failed d = false -> Forall (fun r => match r with DWrote (Some _) => False | _ => True end) rs ->
  failed (snd (spec_dfops cr o d xs rs)) = false.
Proof.
  induction xs as [|x xs IH]; intros [|r rs] cr o d S K F A; try destruct S; try destruct K; [exact F|]. inversion A as [|? ? A1 A2]; subst. cbn [spec_dfops]. apply IH; auto.
  destruct x as [b|x]; cbn [spec_dfop]; [now destruct (line_read r)|]. destruct r as [y cs|[e|]|]; [destruct H|destruct A1| |destruct H]. destruct H1 as [_ NA].
  destruct (spec_fop cr o d x) as [b d'] eqn:E. cbn [fst snd ok] in *. subst b. exact (fop_alive _ _ _ _ _ NA E F).
Qed.
Theorem colour_sent : forall nel lsps cr an o os rs e w xs, talk (at_start nel lsps cr an o true) (at_start nel lsps cr an o false) os = (rs, e) ->
  an w = true -> ops_at w os = map dfop_op xs -> dfops_ok [] xs (results_at w rs) -> all_written w rs -> emitted (inner (dout (here (end_of w e)))) = as_sent (cr w) (dshown [] xs (results_at w rs)).
Proof.
  intros nel lsps cr an o os rs e w xs H AN EX OK AW. destruct (end_follows _ _ _ _ _ _ _ _ w H) as (sc & [A _ _ _ _] & _). specialize (A []). rewrite AN, EX in A.
  destruct (duplex_colour _ _ _ _ _ _ _ _ _ A OK) as (S & E & _). pose proof (dfops_alive _ _ _ _ _ S OK eq_refl AW) as F. destruct (dshown_text _ _ _ _ _ S OK F) as (_ & _ & T). cbn [dout] in E. rewrite E. exact T.
Qed.

(** * What arrives *)
Lemma colour_no_bom : forall cr u v, uncoloured u v -> all_clean v -> without_bom (as_sent cr u) = as_sent cr u.
Proof.
  intros cr u v U A. destruct (as_sent cr u) as [|c t] eqn:E; [reflexivity|]. cbn. destruct (c =? 0xFEFF) eqn:EB; [|reflexivity]. apply N.eqb_eq in EB. subst c. exfalso.
  inversion U as [|x s t' N H|ps s t' P H]; subst; [destruct cr; discriminate| |].
  - inversion A as [|? ? C _]; subst. apply clean_special in C. destruct C as (_ & _ & _ & C). destruct cr; cbn in E; [destruct (x =? 10); injection E as E1 _; [discriminate E1|]|injection E as E1 _]; apply C; exact E1.
  - rewrite as_sent_app, sgr_sent in E by exact P. discriminate E.
Qed.
Lemma coloured_unended : forall cr nel lsps u v, uncoloured u v -> all_clean v -> exists rs,
  replaced true (char_rep nel lsps) (as_sent cr u) rs /\ concat rs = v /\ (needs_newline rs = false -> line_terminated u).
Proof.
  intros cr nel lsps u v H. induction H as [|c s t HC H IH|ps s t P H IH]; intro CL.
  - exists []. split; [destruct cr; constructor|]. split; [reflexivity|now left].
  - inversion CL as [|? ? C1 C2]; subst. destruct (IH C2) as (rs & R & E & L). exists ([c] :: rs). rewrite <- E. split; [|split; [reflexivity|]].
    + change (c :: s) with ([c] ++ s). rewrite as_sent_app.
      destruct (clean_special _ C1) as (N1 & N2 & N3 & _). destruct (cr && (c =? 0xA)) eqn:EC.
      * apply andb_prop in EC. destruct EC as [-> EC]. apply N.eqb_eq in EC. subst c. change (as_sent true [0xA]) with [0xD; 0xA]. constructor; [constructor|exact (long_crlf _ _ _)|exact R].
      * assert (as_sent cr [c] = [c]) as -> by (unfold as_sent; destruct cr; [cbn in *; now rewrite EC|reflexivity]).
        pose proof (row_char true (char_rep nel lsps) c N1 N2 N3) as RC. rewrite (clean_char_rep nel lsps c C1) in RC. constructor; [exact RC|now apply long_char|exact R].
    + intro K. unfold needs_newline, last_nl in *. right. destruct rs as [|r rs _] using rev_ind.
      * apply ColourProps.replaced_nil_inv2 in R. assert (s = []) as -> by (destruct s as [|x s]; [reflexivity|]; change (x :: s) with ([x] ++ s) in R; rewrite as_sent_app in R; destruct cr; cbn in R; [destruct (x =? 10)|]; discriminate R).
        exists []. cbn in K. unfold is_LF in K. destruct (N.eqb_spec c 0xA) as [->|NE]; [reflexivity|]. exfalso. change LF with 0xA in K. apply N.eqb_neq in NE. rewrite NE in K. discriminate K.
      * change ([c] :: rs ++ [r]) with (([c] :: rs) ++ [r]) in K. rewrite !last_opt_snoc in *. destruct (L K) as [->|[z ->]]; [|now exists (c :: z)].
        exfalso. assert (ES : as_sent cr [] = []) by (destruct cr; reflexivity). rewrite ES in R. apply ColourProps.replaced_nil_inv in R. destruct rs; discriminate R.
  - destruct (IH CL) as (rs & R & E & L). exists ([] :: rs). rewrite as_sent_app, sgr_sent by exact P. split; [constructor; [now apply sgr_row|now apply sgr_longest|exact R]|]. split; [exact E|].
    intro K. right. unfold needs_newline, last_nl in *. destruct rs as [|r rs _] using rev_ind; [discriminate K|]. change ([] :: rs ++ [r]) with (([] :: rs) ++ [r]) in K. rewrite !last_opt_snoc in *.
    destruct (L K) as [->|[z ->]]; [|exists (sgr ps ++ z); apply app_assoc].
    exfalso. assert (ES : as_sent cr [] = []) by (destruct cr; reflexivity). rewrite ES in R. apply ColourProps.replaced_nil_inv in R. destruct rs; discriminate R.
Qed.
Lemma colour_text : forall cr nel lsps u v, uncoloured u v -> string_ok v ->
  let t := translate nel lsps (without_bom (as_sent cr u)) in (t = v \/ t = v ++ [0xA]) /\ (line_terminated u -> t = v) /\ (~ line_terminated u -> t = v ++ [0xA]).
Proof.
  intros cr nel lsps u v U OK. pose proof (ok_clean v OK) as A. destruct OK as (_ & ST & EN). cbv zeta. rewrite (colour_no_bom cr u v U A). split; [|split].
  - destruct (coloured_replaced cr nel lsps u v U A) as (rs & R & E & L). rewrite (translate_replaced _ _ _ _ R), E, guards_id by assumption. destruct (needs_newline rs); [now right|left; apply app_nil_r].
  - intro LT. destruct (coloured_replaced cr nel lsps u v U A) as (rs & R & E & L). rewrite (translate_replaced _ _ _ _ R), E, guards_id by assumption. rewrite (L LT). apply app_nil_r.
  - intro LT. destruct (coloured_unended cr nel lsps u v U A) as (rs & R & E & L). rewrite (translate_replaced _ _ _ _ R), E, guards_id by assumption. destruct (needs_newline rs); [reflexivity|]. now destruct (LT (L eq_refl)).
Qed.
Lemma colour_gives : forall cr nel lsps u v sc, uncoloured u v -> string_ok v -> Forall (fun c => is_assigned c = true) v -> stream_text sc = as_sent cr u -> no_push sc ->
  exists t, gives nel lsps sc t /\ (line_terminated u -> t = v) /\ (~ line_terminated u -> t = v ++ [0xA]).
Proof.
  intros cr nel lsps u v sc U OK A E NP. destruct (colour_text cr nel lsps u v U OK) as (T1 & T2 & T3). cbv zeta in T1, T2, T3. set (t := translate nel lsps (without_bom (as_sent cr u))) in *. exists t. split; [|auto].
  assert (OT : string_ok t) by (destruct T1 as [-> | ->]; [exact OK|now apply LineProps.ok_snoc]).
  assert (AT : Forall (fun c => is_assigned c = true) t).
  { destruct T1 as [-> | ->]; [exact A|]. apply Forall_app. split; [exact A|]. constructor; [vm_compute; reflexivity|constructor]. }
  destruct (session_terminates nel lsps sc) as [n H]. destruct (H (repeat 136%nat n)) as (k & rs & j & rest & R & RE).
  - apply Forall_forall. intros b IB. apply repeat_spec in IB. subst b. apply le_n.
  - rewrite repeat_length. apply le_n.
  - do 4 eexists. split; [exact R|]. split; [exact RE|]. destruct (session_end _ _ _ _ _ _ _ R RE) as (-> & _). rewrite converted_plain; rewrite ?E; fold t; auto.
    + apply ok_pipeline; [exact OT|]. now apply assigned_preceded.
    + left. intros z EZ. rewrite E in EZ. pose proof (colour_no_bom cr u v U (ok_clean v OK)) as NB. rewrite EZ in NB. change (z = 0xFEFF :: z) in NB. apply (f_equal (@length N)) in NB. cbn in NB. lia.
    + now apply assigned_unguarded.
Qed.

(** * After a line end the reader is at the start of a line *)
Lemma params_state : forall nel lsps ps e, Forall parameter ps -> trans nel lsps (e, Csi) ps = ([], (e, Csi)).
Proof.
  intros nel lsps ps e P. induction P as [|c ps HC P IH]; [reflexivity|]. cbn [trans]. rewrite (t_csi_param nel lsps e c HC), IH. reflexivity.
Qed.
Lemma sgr_state : forall nel lsps ps e b, Forall parameter ps -> exists e', snd (trans nel lsps (e, Ground b) (sgr ps)) = (e', Ground false).
Proof.
  intros nel lsps ps e b P. exists e. unfold sgr. destruct ps as [|c ps]; [reflexivity|]. inversion P as [|? ? P1 P2]; subst.
  assert (T : trans nel lsps (e, CsiStart) [c] = ([], (e, Csi))).
  { cbn [trans]. unfold tstep, step, stub. cbn [st snd fst]. unfold parameter in P1. destruct (c =? 0x5B) eqn:E1; [lia|]. assert (in_range c 32 63 = true) as -> by (unfold in_range; lia). reflexivity. }
  change (0x1B :: 0x5B :: (c :: ps) ++ [0x6D]) with ([0x1B; 0x5B] ++ ([c] ++ (ps ++ [0x6D]))). rewrite trans_app. change (trans nel lsps (e, Ground b) [0x1B; 0x5B]) with (@nil N, (e, CsiStart)). cbv iota beta zeta.
  rewrite trans_app, T. cbv iota beta zeta. rewrite trans_app, (params_state nel lsps ps e P2). reflexivity.
Qed.
Lemma char_state : forall cr nel lsps c e b, clean c = true -> exists e' b', snd (trans nel lsps (e, Ground b) (as_sent cr [c])) = (e', Ground b') /\ (c = 0xA -> b' = true).
Proof.
  intros cr nel lsps c e b C. destruct (N.eqb_spec c 0xA) as [->|NE]; [exists false, true; split; [destruct cr; reflexivity|auto]|].
  assert (as_sent cr [c] = [c]) as -> by (apply N.eqb_neq in NE; destruct cr; cbn; rewrite ?NE; reflexivity). apply clean_special in C. destruct C as (N1 & N2 & N3 & _).
  do 2 eexists. split; [|intro; contradiction]. cbn [trans]. unfold tstep, step, stub, step_ground, ground_char. cbn [st snd fst].
  change LF with 0xA. change CR with 0xD. change FF with 0xC. change ESC with 0x1B. apply N.eqb_neq in NE, N1, N2, N3. rewrite NE, N1, N2, N3. reflexivity.
Qed.
Lemma colour_state : forall cr nel lsps u v, uncoloured u v -> all_clean v -> forall e b, exists e' b', snd (trans nel lsps (e, Ground b) (as_sent cr u)) = (e', Ground b') /\ (forall z, u = z ++ [0xA] -> b' = true).
Proof.
  intros cr nel lsps u v U. induction U as [|c s t NE U IH|ps s t P U IH]; intros A e b.
  - exists e, b. split; [destruct cr; reflexivity|]. intros [|] K; discriminate K.
  - inversion A as [|? ? C A2]; subst. change (c :: s) with ([c] ++ s). rewrite as_sent_app, trans_app. destruct (char_state cr nel lsps c e b C) as (e1 & b1 & T1 & L1).
    destruct (trans nel lsps (e, Ground b) (as_sent cr [c])) as [o1 x1]. cbn [snd] in T1. subst x1. destruct (IH A2 e1 b1) as (e2 & b2 & T2 & L2). destruct (trans nel lsps (e1, Ground b1) (as_sent cr s)) as [o2 x2] eqn:ES. cbn [snd] in *. exists e2, b2. split; [exact T2|].
    intros [|y z] K; cbn in K; injection K as -> K; [|exact (L2 _ K)]. subst s. assert (ZE : as_sent cr [] = []) by (destruct cr; reflexivity). rewrite ZE in ES. cbn in ES. injection ES as _ <-. injection T2 as _ <-. now apply L1.
  - rewrite as_sent_app, (sgr_sent cr ps P), trans_app. destruct (sgr_state nel lsps ps e b P) as (e1 & T1). destruct (trans nel lsps (e, Ground b) (sgr ps)) as [o1 x1]. cbn [snd] in T1. subst x1.
    destruct (IH A e1 false) as (e2 & b2 & T2 & L2). destruct (trans nel lsps (e1, Ground false) (as_sent cr s)) as [o2 x2]. cbn [snd] in *. exists e2, b2. split; [exact T2|].
    intros z K. destruct s as [|c s _] using rev_ind.
    + exfalso. rewrite app_nil_r in K. unfold sgr in K. change (27 :: 91 :: ps ++ [109]) with ((27 :: 91 :: ps) ++ [109]) in K. apply app_inj_tail in K. destruct K as [_ K]. discriminate K.
    + rewrite app_assoc in K. apply app_inj_tail in K. destruct K as [_ ->]. exact (L2 _ eq_refl).
Qed.
Lemma feed_state : forall nel lsps evs new a, feed nel lsps abs0 evs = (new, a) -> Forall (fun e => snd e = Active) evs -> without_bom (flat_map fst evs) = flat_map fst evs ->
  a_ts a = snd (trans nel lsps (true, Ground true) (flat_map fst evs)).
Proof.
  intros nel lsps evs. induction evs as [|[raw s] evs IH] using rev_ind; intros new a H AC NB; [cbn in H; injection H as _ <-; reflexivity|].
  rewrite feed_app in H. destruct (feed nel lsps abs0 evs) as [n1 a1] eqn:E1. cbn [feed] in H. destruct (absorb nel lsps a1 raw s) as [n2 a2] eqn:E2. injection H as _ <-.
  apply Forall_app in AC. destruct AC as [AC1 AC2]. pose proof (Forall_inv AC2) as ES. cbn in ES. subst s. rewrite flat_map_app in NB |- *. cbn [flat_map fst] in NB |- *. rewrite app_nil_r in NB |- *.
  assert (NB1 : without_bom (flat_map fst evs) = flat_map fst evs).
  { destruct (flat_map fst evs) as [|c t]; [reflexivity|]. cbn in NB |- *. destruct (c =? 0xFEFF); [|reflexivity]. exfalso. apply (f_equal (@length N)) in NB. cbn [length] in NB. lia. }
  specialize (IH _ _ eq_refl AC1 NB1). unfold absorb, pushed in E2. cbn [fin is_active] in E2.
  assert (B : ReadFacts.body (a_start a1) raw = raw).
  { destruct (a_start a1) eqn:SS; [|reflexivity]. destruct evs as [|[r0 s0] evs] using rev_ind.
    - cbn in NB. unfold ReadFacts.body. destruct raw as [|c raw]; [reflexivity|]. change BOM with 0xFEFF. cbn in NB. destruct (c =? 0xFEFF); [exact NB|reflexivity].
    - exfalso. rewrite feed_app in E1. destruct (feed nel lsps abs0 evs) as [n3 a3]. cbn [feed] in E1. unfold absorb in E1. destruct (pushed nel lsps a3 r0 s0). injection E1 as _ <-. discriminate. }
  rewrite B, IH in E2. rewrite trans_app. destruct (trans nel lsps (true, Ground true) (flat_map fst evs)) as [o1 x1]. cbn [snd] in E2. destruct (trans nel lsps x1 raw) as [o2 [e2 s2]]. injection E2 as _ <-. reflexivity.
Qed.

(** * What is heard *)
Theorem colour_heard : forall nel lsps cr an o os rs e w xs v, talk (at_start nel lsps cr an o true) (at_start nel lsps cr an o false) os = (rs, e) ->
  Forall (fun x => x <> DOut OpAbandon) (ops_at w os) -> calm_line w os -> closes_last (negb w) os ->
  an (negb w) = true -> ops_at (negb w) os = map dfop_op xs -> dfops_ok [] xs (results_at (negb w) rs) -> all_written (negb w) rs ->
  let sent := dshown [] xs (results_at (negb w) rs) in uncoloured sent v -> string_ok v -> Forall (fun c => is_assigned c = true) v ->
  (line_terminated sent -> (exists more, v = heard w rs ++ more) /\ (reached_end (read_results (results_at w rs)) -> heard w rs = v)) /\
  (~ line_terminated sent -> (exists more, v ++ [0xA] = heard w rs ++ more) /\ (reached_end (read_results (results_at w rs)) -> heard w rs = v ++ [0xA])).
Proof.
  intros nel lsps cr an o os rs e w xs v H NA CL OV AN EX DO AW sent U OK AS. destruct (whole_line _ _ _ _ _ _ _ _ _ H NA CL (fun K => proj2 (end_is_last _ _ _ _ _ _ _ _ _ H OV K))) as (sc & tail & _ & _ & NF & NP & TX & _ & R).
  rewrite (colour_sent _ _ _ _ _ _ _ _ _ _ H AN EX DO AW) in TX. fold sent in TX. destruct (colour_gives _ (nel w) (lsps w) _ _ _ U OK AS TX NP) as (t & G & T1 & T2).
  destruct (received_is_prefix _ _ _ _ _ _ _ _ NF G R) as [X Y]. fold (heard w rs) in X, Y. split.
  - intro LT. rewrite (T1 LT) in X, Y. split; [exact X|]. intro RE. symmetry. exact (Y RE).
  - intro LT. rewrite (T2 LT) in X, Y. split; [exact X|]. intro RE. symmetry. exact (Y RE).
Qed.
Theorem colour_prompt : forall nel lsps cr an o os rs e w xs v, talk (at_start nel lsps cr an o true) (at_start nel lsps cr an o false) os = (rs, e) ->
  Forall (fun x => x <> DOut OpAbandon) (ops_at w os) -> calm_line w os -> all_arrived w e -> left_room (read_sizes (ops_at w os)) (read_results (results_at w rs)) ->
  an (negb w) = true -> ops_at (negb w) os = map dfop_op xs -> dfops_ok [] xs (results_at (negb w) rs) -> all_written (negb w) rs ->
  let sent := dshown [] xs (results_at (negb w) rs) in uncoloured sent v -> string_ok v -> Forall (fun c => is_assigned c = true) v -> line_terminated sent ->
  heard w rs = v.
Proof.
  intros nel lsps cr an o os rs e w xs v H NA CL AR LR AN EX DO AW sent U OK AS LT. destruct (whole_line _ _ _ _ _ _ _ _ _ H NA CL (fun _ => AR)) as (sc & tail & TL & CS & NF & NP & TX & OE & R). rewrite (TL AR) in *. rewrite app_nil_r in *. clear TL.
  rewrite (colour_sent _ _ _ _ _ _ _ _ _ _ H AN EX DO AW) in TX. fold sent in TX. destruct (colour_gives _ (nel w) (lsps w) _ _ _ U OK AS TX NP) as (t & G & T2 & _). rewrite (T2 LT) in G. clear T2 t.
  destruct (received_is_prefix _ _ _ _ _ _ _ _ NF G R) as [[held X] _]. fold (heard w rs) in X.
  assert (DH : delivered (read_results (results_at w rs)) = heard w rs) by (symmetry; exact (ReadProps.received_delivered _ _ _ _ _ _ (wf_new _ _) NF R)).
  assert (HO : holds (nel w) (lsps w) sc [] (read_sizes (ops_at w os)) (read_results (results_at w rs)) (din (here (end_of w e))) held).
  { split; [now rewrite app_nil_r|]. rewrite DH, <- X. exact G. }
  assert (HN : held = []); [|subst held; now rewrite app_nil_r in X]. destruct LT as [LT|[t LT]].
  { rewrite LT in U. assert (V : v = []) by (clear - U; now inversion U). rewrite V in X. symmetry in X. apply app_eq_nil in X. now destruct X. }
  destruct (room_state _ _ _ _ _ _ _ _ HO LR) as (W & A & I & [(Q & _)|(evs & E1 & E2 & E3 & E4)]); [exact Q|].
  destruct (absorb_last _ _ _ _ _ I E4) as [(Q & _)|(y & _ & _ & NG & _)]; [exact Q|]. exfalso. apply NG.
  assert (NE : existsb is_end sc = false).
  { apply not_true_is_false. intro K. apply existsb_exists in K. destruct K as (ev & K1 & K2). destruct ev as [cs [| |]|]; try discriminate K2. exact (E2 _ K1). }
  pose proof (ReadChunk.evs_text sc) as TE. rewrite E1, flat_map_app in TE. cbn [flat_map fst] in TE. rewrite !app_nil_r in TE. rewrite TX in TE.
  assert (NB : without_bom (flat_map fst evs) = flat_map fst evs) by (rewrite TE; exact (colour_no_bom _ _ _ U (ok_clean _ OK))).
  rewrite (feed_state _ _ _ _ _ E3 (evs_active sc CS NE _ _ E1) NB), TE. destruct (colour_state (cr (negb w)) (nel w) (lsps w) _ _ U (ok_clean _ OK) true true) as (e' & b' & -> & Z). cbn [snd]. now rewrite (Z _ LT).
Qed.

(** * Reading until all is heard *)
(** [sent] is what this end hears of any continuation in which the other end does nothing. *)
Lemma live : forall nel lsps cr an o os rs e w b m k sent, talk (at_start nel lsps cr an o true) (at_start nel lsps cr an o false) os = (rs, e) ->
  Forall (fun x => x <> DOut OpAbandon) (ops_at w os) -> calm_line w os -> closes_last (negb w) os ->
  (forall os' rs' e', talk (at_start nel lsps cr an o true) (at_start nel lsps cr an o false) os' = (rs', e') -> Forall (fun x => x <> DOut OpAbandon) (ops_at w os') -> calm_line w os' -> closes_last (negb w) os' ->
    ops_at (negb w) os' = ops_at (negb w) os -> results_at (negb w) rs' = results_at (negb w) rs ->
    (exists more, sent = heard w rs' ++ more) /\ (all_arrived w e' -> left_room (read_sizes (ops_at w os')) (read_results (results_at w rs')) -> heard w rs' = sent)) ->
  (136 <= b)%nat -> (length (emitted (inner (dout (here (end_of (negb w) e))))) <= m)%nat -> (str_len sent + 2 <= k)%nat ->
  heard w (fst (talk (at_start nel lsps cr an o true) (at_start nel lsps cr an o false) (os ++ listen w b m k))) = sent.
Proof.
  intros nel lsps cr an o os rs e w b m k sent H NA CL CC HR B M KB.
  set (T := fun k => talk (at_start nel lsps cr an o true) (at_start nel lsps cr an o false) (os ++ listen w b m k)).
  assert (OW : forall k, ops_at (negb w) (listen w b m k) = []) by (clear; induction k as [|k IH]; [reflexivity|]; unfold ops_at, listen in *; cbn [repeat flat_map]; rewrite IH; destruct w; reflexivity).
  assert (OM : forall k, ops_at w (listen w b m k) = repeat (DRead b) k) by (clear; induction k as [|k IH]; [reflexivity|]; unfold ops_at, listen in *; cbn [repeat flat_map]; rewrite IH; destruct w; reflexivity).
  assert (INV : forall k, let '(rs', e') := T k in
    Forall (fun x => x <> DOut OpAbandon) (ops_at w (os ++ listen w b m k)) /\ calm_line w (os ++ listen w b m k) /\ closes_last (negb w) (os ++ listen w b m k) /\
    ops_at (negb w) (os ++ listen w b m k) = ops_at (negb w) os /\ results_at (negb w) rs' = results_at (negb w) rs /\ end_of (negb w) e' = end_of (negb w) e).
  { clear k KB. induction k as [|k IH].
    - unfold T. cbn [listen repeat]. rewrite app_nil_r, H. repeat (split; [assumption || reflexivity|]). reflexivity.
    - unfold T in *. rewrite listen_snoc, app_assoc, talk_app. destruct (talk (at_start nel lsps cr an o true) (at_start nel lsps cr an o false) (os ++ listen w b m k)) as [r1 e1]. destruct IH as (I1 & I2 & I3 & I4 & I5 & I6).
      assert (TK : exists r e2, talk (fst e1) (snd e1) [(w, TRead b (Some (m, Active)))] = ([(w, r)], e2) /\ end_of (negb w) e2 = end_of (negb w) e1).
      { cbn [talk]. destruct w; destruct (side_step _ _ _) as [r x]; exists r; eexists; split; reflexivity. }
      destruct TK as (r & e2 & -> & EY). rewrite (ops_at_app w), (ops_at_app (negb w)), results_at_app.
      assert (Z1 : ops_at w [(w, TRead b (Some (m, Active)))] = [DRead b]) by (destruct w; reflexivity). assert (Z2 : ops_at (negb w) [(w, TRead b (Some (m, Active)))] = []) by (destruct w; reflexivity).
      assert (Z3 : results_at (negb w) [(w, r)] = []) by (destruct w; reflexivity). rewrite Z1, Z2, Z3, !app_nil_r.
      split; [apply Forall_app; split; [exact I1|]; constructor; [discriminate|constructor]|]. split; [apply Forall_app; split; [exact I2|]; constructor; [intros _; exact I|constructor]|]. split; [exact (closes_snoc w _ _ I3)|].
      split; [exact I4|]. split; [exact I5|]. now rewrite EY. }
  assert (PRE : forall k, exists more, sent = heard w (fst (T k)) ++ more).
  { intro j. specialize (INV j). destruct (T j) as [rs' e'] eqn:ET. destruct INV as (I1 & I2 & I3 & I4 & I5 & I6). cbn [fst]. unfold T in ET.
    exact (proj1 (HR _ _ _ ET I1 I2 I3 I4 I5)). }
  assert (STEP : forall k, heard w (fst (T k)) = sent \/ (k <= str_len (heard w (fst (T k))) + (if (taken (end_of w (snd (T k))) =? length (emitted (inner (dout (here (end_of (negb w) e))))))%nat then 1 else 0))%nat).
  { clear k KB. induction k as [|k IH]; [right; lia|].
    pose proof (INV k) as IK. pose proof (INV (S k)) as IK1. pose proof (PRE (S k)) as PK. unfold T in IH, IK, IK1, PK |- *. rewrite listen_snoc, app_assoc, talk_app in IK1, PK |- *.
    destruct (talk (at_start nel lsps cr an o true) (at_start nel lsps cr an o false) (os ++ listen w b m k)) as [r1 e1] eqn:ET. destruct IK as (I1 & I2 & I3 & I4 & I5 & I6).
    destruct (side_step (end_of w e1) (end_of (negb w) e1) (TRead b (Some (m, Active)))) as [r me'] eqn:ST.
    assert (TK : exists e2, talk (fst e1) (snd e1) [(w, TRead b (Some (m, Active)))] = ([(w, r)], e2) /\ end_of w e2 = me' /\ end_of (negb w) e2 = end_of (negb w) e1).
    { cbn [talk]. destruct w; cbn [negb end_of] in ST |- *; rewrite ST; eexists; (split; [reflexivity|]); split; reflexivity. }
    destruct TK as (e2 & TK & EM & EY). rewrite TK in *. cbn [fst snd] in *. destruct IK1 as (J1 & J2 & J3 & J4 & J5 & J6).
    rewrite <- I6 in M. destruct (one_more _ _ _ _ _ _ _ _ w b m r me' ET I1 I2 I3 B M ST) as (s & cs & -> & ALT).
    assert (HD : heard w (r1 ++ [(w, DGot (ROk (str_len cs) s) cs)]) = heard w r1 ++ cs).
    { unfold heard. rewrite results_at_app. assert (RW : results_at w [(w, DGot (ROk (str_len cs) s) cs)] = [DGot (ROk (str_len cs) s) cs]) by (destruct w; reflexivity). rewrite RW. unfold read_results. rewrite flat_map_app. cbn [flat_map app]. unfold received. rewrite flat_map_app. cbn. now rewrite app_nil_r. }
    rewrite HD in *. destruct PK as [more PK]. rewrite EM, str_len_app. rewrite <- I6, <- EY.
    assert (DONE : (str_len cs + 4 <= b)%nat -> taken me' = length (emitted (inner (dout (here (end_of (negb w) e2))))) -> heard w r1 ++ cs = sent).
    { intros ROOM ALL. rewrite <- HD. assert (FULL : talk (at_start nel lsps cr an o true) (at_start nel lsps cr an o false) ((os ++ listen w b m k) ++ [(w, TRead b (Some (m, Active)))]) = (r1 ++ [(w, DGot (ROk (str_len cs) s) cs)], e2)) by (rewrite talk_app, ET, TK; reflexivity).
      apply (proj2 (HR _ _ _ FULL J1 J2 J3 J4 J5)).
      - unfold all_arrived. now rewrite EM.
      - exists (read_sizes (ops_at w (os ++ listen w b m k))), b, (read_results (results_at w r1)), (str_len cs), s, cs. split; [|split; [|exact ROOM]].
        + rewrite ops_at_app. unfold read_sizes. rewrite flat_map_app. f_equal. destruct w; reflexivity.
        + rewrite results_at_app. unfold read_results. rewrite flat_map_app. f_equal. destruct w; reflexivity. }
    assert (MONO : heard w r1 = sent -> heard w r1 ++ cs = sent).
    { intro EQ. rewrite EQ, <- app_assoc in PK. rewrite <- (app_nil_r sent) in PK at 1. apply app_inv_head in PK. symmetry in PK. apply app_eq_nil in PK. destruct PK as [-> _]. now rewrite EQ, app_nil_r. }
    destruct IH as [IH|IH]; [left; exact (MONO IH)|].
    assert (PC : cs <> [] -> (1 <= str_len cs)%nat) by (intro NC; destruct cs as [|c cs']; [congruence|]; cbn; pose proof (utf8_len_pos c); lia).
    destruct ALT as [ALT|ALT].
    - rewrite <- EY in ALT. destruct (Nat.le_gt_cases (str_len cs + 4) b) as [RM|RM]; [left; exact (DONE RM ALT)|]. right. rewrite <- I6 in IH. destruct (_ =? _)%nat; destruct (_ =? _)%nat; lia.
    - specialize (PC ALT). destruct (Nat.eqb_spec (taken (end_of w e1)) (length (emitted (inner (dout (here (end_of (negb w) e))))))) as [E1|N1]; [|right; lia].
      destruct (Nat.eqb_spec (taken me') (length (emitted (inner (dout (here (end_of (negb w) e2)))))))  as [E2|N2]; [right; lia|]. exfalso. apply N2. rewrite EY, I6 in *.
      cbn [side_step] in ST. destruct (do_dop _ _) as [r0 d]. unfold offer, incoming in ST. rewrite <- I6, E1 in ST. destruct (over (end_of w e1)).
      + destruct (dscript d); injection ST as _ <-; cbn [taken]; rewrite ?E1, ?I6; reflexivity.
      + destruct (dscript d); injection ST as _ <-; cbn [taken]; [|rewrite ?E1, ?I6; reflexivity]. rewrite firstn_length, skipn_length, ?E1, ?I6. lia. }
  destruct (STEP k) as [Q|Q]; [exact Q|]. exfalso. destruct (PRE k) as [more PK]. apply (f_equal str_len) in PK. rewrite str_len_app in PK. destruct (_ =? _)%nat in Q; lia.
Qed.
Theorem colour_delivered : forall nel lsps cr an o os rs e w xs v b m k, talk (at_start nel lsps cr an o true) (at_start nel lsps cr an o false) os = (rs, e) ->
  Forall (fun x => x <> DOut OpAbandon) (ops_at w os) -> calm_line w os -> closes_last (negb w) os ->
  an (negb w) = true -> ops_at (negb w) os = map dfop_op xs -> dfops_ok [] xs (results_at (negb w) rs) -> all_written (negb w) rs ->
  let sent := dshown [] xs (results_at (negb w) rs) in uncoloured sent v -> string_ok v -> Forall (fun c => is_assigned c = true) v -> line_terminated sent ->
  (136 <= b)%nat -> (length (emitted (inner (dout (here (end_of (negb w) e))))) <= m)%nat -> (str_len v + 2 <= k)%nat ->
  heard w (fst (talk (at_start nel lsps cr an o true) (at_start nel lsps cr an o false) (os ++ listen w b m k))) = v.
Proof.
  intros nel lsps cr an o os rs e w xs v b m k H NA CL CC AN EX DO AW sent U OK AS LT B M KB. apply (live _ _ _ _ _ _ _ _ _ _ _ _ v H NA CL CC); auto.
  intros os' rs' e' H' NA' CL' CC' EO ER. unfold all_written in AW. rewrite <- EO in EX. unfold sent in *. rewrite <- ER in DO, AW, U, LT. split.
  - destruct (colour_heard _ _ _ _ _ _ _ _ w xs v H' NA' CL' CC' AN EX DO AW U OK AS) as [Q _]. exact (proj1 (Q LT)).
  - intros AR LR. exact (colour_prompt _ _ _ _ _ _ _ _ w xs v H' NA' CL' AR LR AN EX DO AW U OK AS LT).
Qed.
