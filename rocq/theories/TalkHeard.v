(** What each end of a conversation hears (C103). *)
From Coq Require Import NArith Arith List Bool Lia ZifyBool ZifyNat ZifyN.
From Verif Require LineProps.
From Verif Require Import Base Ucd Norm Chars TextTables TextUtils UcdFacts NormFacts CharFacts SpecText TextFacts PipelineFacts IsoFacts Utf8 Utf8Facts Input Output SpecRead ReadFacts ReadInv ReadSession ReadChunk SpecEscape EscapeFacts EscapeRun ReadProps
  KeepFacts ReadPieces SpecConv ConvFacts ScalarFacts SpecWrite WriteFacts WriteProps WriteColour CopyProps Strings StringFacts ConcatFacts EdgeFacts SpecString StringProps LossyProps Fuzz FuzzProps SpecMore CanonProps
  Copy Duplex SpecDuplex DuplexProps DuplexExact SpecCat AdaptProps SpecPrompt PromptProps Talk SpecTalk TalkProps.
Import ListNotations.
Local Open Scope N_scope.
Arguments N.add : simpl never.
Arguments N.leb : simpl never.
Arguments N.ltb : simpl never.
Arguments N.eqb : simpl never.
Local Opaque pipeline.

(** * The history of each end *)
(** An event without trouble: no failure, no push. *)
Definition calm (e : event) : Prop := match e with Chunk _ Push => False | Fail => False | _ => True end.
Lemma offer_calm : forall me other a e, offer me other a = [e] -> match a with None => False | Some (_, Push) => False | _ => True end -> calm e.
Proof.
  intros me other a e H C. unfold offer in H. destruct (over me); [discriminate|]. destruct a as [[n [| |]]|]; try destruct C; injection H as <-; [exact I|]. now destruct (shut other && _).
Qed.
Lemma talk_follows : forall os nel lsps cr an o x y rs e ox rx sx oy ry sy, talk x y os = (rs, e) ->
  follows (nel true) (lsps true) (cr true) (an true) (o true) x y ox rx sx -> follows (nel false) (lsps false) (cr false) (an false) (o false) y x oy ry sy ->
  exists ex ey, follows (nel true) (lsps true) (cr true) (an true) (o true) (fst e) (snd e) (ox ++ ops_at true os) (rx ++ results_at true rs) (sx ++ ex) /\
    follows (nel false) (lsps false) (cr false) (an false) (o false) (snd e) (fst e) (oy ++ ops_at false os) (ry ++ results_at false rs) (sy ++ ey) /\
    (calm_line true os -> Forall calm ex) /\ (calm_line false os -> Forall calm ey).
Proof.
  induction os as [|[w t] os IH]; intros nel lsps cr an o x y rs e ox rx sx oy ry sy H FX FY; cbn [talk] in H.
  - injection H as <- <-. exists [], []. cbn. rewrite !app_nil_r. auto.
  - destruct w.
    + destruct (side_step x y t) as [r x'] eqn:ES. destruct (talk x' y os) as [rs' e'] eqn:ET. injection H as <- <-.
      destruct (follows_step _ _ _ _ _ _ _ _ _ _ _ _ _ FX ES) as (G & es & FX' & C). pose proof (follows_other _ _ _ _ _ _ _ _ _ _ _ FY G) as FY'.
      destruct (IH _ _ _ _ _ _ _ _ _ _ _ _ _ _ _ ET FX' FY') as (ex & ey & A & B & CX & CY). exists (es ++ ex), ey. rewrite <- !app_assoc in A. cbn [app] in A. unfold ops_at, results_at in *. cbn [flat_map Bool.eqb app]. fold (dop_of t). split; [exact A|]. split; [exact B|]. split; intro K; inversion K as [|? ? K1 K2]; subst.
      * apply Forall_app. split; [|exact (CX K2)]. destruct C as [->|(e & blen & a & -> & -> & EO)]; [constructor|]. constructor; [|constructor]. apply (offer_calm _ _ _ _ EO). specialize (K1 eq_refl). destruct a as [[n [| |]]|]; exact K1.
      * exact (CY K2).
    + destruct (side_step y x t) as [r y'] eqn:ES. destruct (talk x y' os) as [rs' e'] eqn:ET. injection H as <- <-.
      destruct (follows_step _ _ _ _ _ _ _ _ _ _ _ _ _ FY ES) as (G & es & FY' & C). pose proof (follows_other _ _ _ _ _ _ _ _ _ _ _ FX G) as FX'.
      destruct (IH _ _ _ _ _ _ _ _ _ _ _ _ _ _ _ ET FX' FY') as (ex & ey & A & B & CX & CY). exists ex, (es ++ ey). rewrite <- !app_assoc in B. cbn [app] in B. unfold ops_at, results_at in *. cbn [flat_map Bool.eqb app]. fold (dop_of t). split; [exact A|]. split; [exact B|]. split; intro K; inversion K as [|? ? K1 K2]; subst.
      * exact (CX K2).
      * apply Forall_app. split; [|exact (CY K2)]. destruct C as [->|(e & blen & a & -> & -> & EO)]; [constructor|]. constructor; [|constructor]. apply (offer_calm _ _ _ _ EO). specialize (K1 eq_refl). destruct a as [[n [| |]]|]; exact K1.
Qed.
Theorem end_follows : forall nel lsps cr an o os rs e w, talk (at_start nel lsps cr an o true) (at_start nel lsps cr an o false) os = (rs, e) ->
  exists sc, follows (nel w) (lsps w) (cr w) (an w) (o w) (end_of w e) (end_of (negb w) e) (ops_at w os) (results_at w rs) sc /\ (calm_line w os -> Forall calm sc).
Proof.
  intros nel lsps cr an o os rs e w H.
  destruct (talk_follows _ nel lsps cr an o _ _ _ _ _ _ _ _ _ _ H (follows_new _ _ _ _ _ _) (follows_new _ _ _ _ _ _)) as (ex & ey & A & B & C & D). cbn [app] in A, B. destruct w; [exists ex|exists ey]; auto.
Qed.
Theorem talk_sides : forall nel lsps cr an o os rs e w, talk (at_start nel lsps cr an o true) (at_start nel lsps cr an o false) os = (rs, e) ->
  exists sc, stream_text sc = firstn (taken (end_of w e)) (emitted (inner (dout (here (end_of (negb w) e))))) /\ (calm_line w os -> no_fail sc /\ no_push sc) /\
  forall more, exists x, do_dops (new_duplexer (nel w) (lsps w) (cr w) (an w) (mksink [] (o w) false) (sc ++ more)) (ops_at w os) = (results_at w rs, x) /\
    din x = din (here (end_of w e)) /\ dout x = dout (here (end_of w e)).
Proof.
  intros nel lsps cr an o os rs e w H. destruct (end_follows _ _ _ _ _ _ _ _ w H) as (sc & [A B C D E] & K). exists sc. split; [exact B|]. split.
  - intro Q. specialize (K Q). rewrite Forall_forall in K. split; [intro F; exact (K _ F)|]. intros cs F. exact (K _ F).
  - intro more. eexists. split; [apply A|]. auto.
Qed.

(** * What the other end has sent *)
Lemma ok_alive : forall cr d o d', o <> OpAbandon -> spec_op cr d o = (true, d') -> failed d' = false.
Proof.
  assert (SD : forall cr d t d', spec_send cr d t = (true, d') -> failed d' = false).
  { intros cr d t d' H. unfold spec_send in H. destruct (_ && _); [discriminate|]. destruct (outcomes d) as [|[|n] q]; inversion H; reflexivity. }
  assert (SC : forall d d', failed d = false -> spec_call d = (true, d') -> failed d' = false).
  { intros d d' F H. unfold spec_call in H. destruct (outcomes d) as [|[|n] q]; inversion H; exact F. }
  assert (SW : forall cr d t d', spec_write cr d t = (true, d') -> failed d' = false).
  { intros cr d t d' H. unfold spec_write in H. destruct (failed d); [discriminate|]. destruct (negb _); [discriminate|]. exact (SD _ _ _ _ H). }
  intros cr d o d' NA H. destruct o as [s|s|bs| | |]; cbn [spec_op] in H.
  - exact (SW _ _ _ _ H).
  - unfold spec_write_text in H. destruct (failed d); [discriminate|]. exact (SD _ _ _ _ H).
  - destruct (decode bs) as [[|c cs] [|b r]]; try exact (SW _ _ _ _ H). discriminate.
  - unfold spec_flush in H. destruct (failed d) eqn:F; [discriminate|]. destruct (opt_all _ _); [exact (SC _ _ F H)|discriminate].
  - unfold spec_close in H. destruct (failed d) eqn:F; [discriminate|]. destruct (last_opt _) as [c|]; [destruct (c =? 10); [|discriminate]|]; exact (SC _ _ F H).
  - congruence.
Qed.
Lemma sides_ok : forall os rs cr d, spec_results cr d os rs -> failed d = false -> Forall plain_dop os -> Forall (fun r => match r with DWrote (Some _) => False | _ => True end) rs -> failed (spec_sides cr d os rs) = false.
Proof.
  induction os as [|o os IH]; intros [|r rs] cr d H F P A; try destruct H; [exact F|]. inversion A as [|? ? A1 A2]; subst. inversion P as [|? ? P1 P2]; subst. cbn [spec_sides]. apply IH; auto.
  destruct o as [b|o]; cbn [spec_side]; [now destruct (line_read r)|]. destruct r as [y cs|[e|]|]; [destruct H|destruct A1| |destruct H]. cbn in H. destruct (spec_op cr d o) as [b d'] eqn:E. cbn [fst snd] in *. subst b. exact (ok_alive _ _ _ _ (proj2 P1) E).
Qed.
Theorem end_sent : forall nel lsps cr an o os rs e w, talk (at_start nel lsps cr an o true) (at_start nel lsps cr an o false) os = (rs, e) ->
  an w = false -> Forall plain_dop (ops_at w os) -> all_written w rs -> emitted (inner (dout (here (end_of w e)))) = as_sent (cr w) (written (ops_at w os)).
Proof.
  intros nel lsps cr an o os rs e w H AN P AW. destruct (end_follows _ _ _ _ _ _ _ _ w H) as (sc & [A _ _ _ _] & _). specialize (A []). rewrite AN in A.
  destruct (duplex_refines _ _ _ _ _ _ _ _ _ A P) as [S R]. pose proof (sides_ok _ _ _ _ S eq_refl P AW) as F. destruct (sides_written _ _ _ _ S F) as (_ & _ & SE). cbn [dout] in R. destruct R as (_ & _ & _ & -> & _). exact SE.
Qed.

(** * After the end *)
Lemma sink_call_same : forall k b k', sink_write k [] = (b, k') -> emitted k' = emitted k.
Proof.
  intros k b k' H. unfold sink_write in H. destruct (abandoned k); [now injection H as <- <-|]. destruct (script k) as [|[|n] t]; injection H as <- <-; cbn; rewrite ?firstn_nil; apply app_nil_r.
Qed.
Lemma quiet_op : forall w o r w', do_op w o = (r, w') -> is_write o = false -> emitted (inner w') = emitted (inner w).
Proof.
  intros w o r w' H N. destruct o; try discriminate N; cbn [do_op] in H.
  - unfold flush, sink_call in H. destruct (wst w) as [[]| |]; try (injection H as <- <-; reflexivity); destruct (sink_write _ _) as [b k] eqn:E; apply sink_call_same in E; injection H as <- <-; exact E.
  - unfold close, and_then, check_nl, sink_call in H. cbn [set_exp wst] in H. destruct (wst w) as [[]| |]; try (injection H as <- <-; reflexivity). destruct (sink_write _ _) as [b k] eqn:E; apply sink_call_same in E; injection H as <- <-; exact E.
  - injection H as <- <-. reflexivity.
Qed.
Lemma quiet_step : forall me other t r me', side_step me other t = (r, me') -> match t with TOut o => is_write o = false | _ => True end -> emitted (inner (dout (here me'))) = emitted (inner (dout (here me))).
Proof.
  intros me other t r me' H N. destruct t as [blen a|o]; cbn [side_step] in H.
  - destruct (do_dop _ _) as [r0 d] eqn:ED. assert (EH : here me' = mkduplexer (din d) (dout d) []) by (destruct (dscript d); [destruct (offer me other a) as [|[c s|] [|y l]]|]; injection H as _ <-; reflexivity).
    rewrite EH. cbn [dout]. cbn [do_dop] in ED. unfold duplex_read in ED. destruct (read _ _ _) as [[[y c] i] sc]. injection ED as _ <-. cbn [dout]. destruct y as [n s| |]; try reflexivity. unfold newline. now destruct (_ && _).
  - destruct (do_dop (here me) (DOut o)) as [r0 d] eqn:ED. injection H as _ <-. cbn [here]. destruct (match o with OpAbandon => true | _ => false end) eqn:A.
    + destruct o; try discriminate A. cbn [do_dop] in ED. unfold duplex_abandon in ED. destruct (abandon_input _); injection ED as _ <-; reflexivity.
    + rewrite do_dop_out in ED by (intros ->; discriminate). destruct (do_op _ _) as [x v] eqn:E. injection ED as _ <-. cbn [dout]. exact (quiet_op _ _ _ _ E N).
Qed.
(** The end has been taken only after the other end closed, and after all it sent. *)
Definition ended_well (w : bool) (me other : side) (os : list (bool * top)) : Prop :=
  (taken me <= length (emitted (inner (dout (here other)))))%nat /\ (over me = true -> shut other = true /\ taken me = length (emitted (inner (dout (here other))))) /\
  (shut other = true -> no_writes (negb w) os) /\ closes_last (negb w) os.
Lemma rest_calls : forall w v t os, closes_last w ((v, t) :: os) -> closes_last w os.
Proof. intros w v t os C a b E. apply (C ((v, t) :: a) b). now rewrite E. Qed.
Lemma ended_me : forall w me other t os r me', side_step me other t = (r, me') -> ended_well w me other ((w, t) :: os) -> ended_well w me' other os.
Proof.
  intros w me other t os r me' H (A & B & C & D). split; [|split; [|split; [intro S; specialize (C S); now inversion C|exact (rest_calls _ _ _ _ D)]]].
  - destruct t as [blen a|o]; cbn [side_step] in H; [|destruct (do_dop _ _) as [r0 d]; injection H as _ <-; exact A]. destruct (do_dop _ _) as [r0 d]. unfold offer in H. destruct (over me); [destruct (dscript d); injection H as _ <-; exact A|].
    destruct a as [[n s]|]; [|destruct (dscript d); injection H as _ <-; exact A]. destruct (dscript d); injection H as _ <-; [|exact A]. cbn [taken]. rewrite firstn_length. unfold incoming. rewrite skipn_length. lia.
  - destruct t as [blen a|o]; cbn [side_step] in H; [|destruct (do_dop _ _) as [r0 d]; injection H as _ <-; exact B]. destruct (do_dop _ _) as [r0 d]. unfold offer in H. destruct (over me) eqn:EO.
    + destruct (dscript d); injection H as _ <-; cbn [over taken]; intros _; exact (B eq_refl).
    + destruct a as [[n s]|]; [|destruct (dscript d); injection H as _ <-; discriminate]. destruct (dscript d); injection H as _ <-; [|discriminate]. cbn [taken over]. destruct s; try discriminate.
      destruct (shut other && _) eqn:E; [|discriminate]. intros _. apply andb_prop in E. destruct E as [E1 E2]. apply Nat.leb_le in E2. split; [exact E1|]. rewrite firstn_all2 by exact E2. unfold incoming. rewrite skipn_length. lia.
Qed.
Lemma ended_other : forall w me other t os r other', side_step other me t = (r, other') -> ended_well w me other ((negb w, t) :: os) -> grows (dout (here other)) (dout (here other')) -> ended_well w me other' os.
Proof.
  intros w me other t os r other' H (A & B & C & D) [u G].
  assert (SH : shut other' = true -> shut other = true \/ t = TOut OpClose).
  { destruct t as [blen a|o]; cbn [side_step] in H; destruct (do_dop _ _) as [r0 d].
    - assert (E : shut other' = shut other) by (destruct (dscript d); [destruct (offer other me a) as [|[c s|] [|y l]]|]; injection H as _ <-; reflexivity). rewrite E. now left.
    - injection H as _ <-. cbn [shut]. intro S. apply orb_prop in S. destruct S as [S|S]; [now left|]. right. destruct o; try discriminate S. reflexivity. }
  assert (SM : shut other = true -> shut other' = true).
  { intro S. destruct t as [blen a|o]; cbn [side_step] in H; destruct (do_dop _ _) as [r0 d].
    - assert (E : shut other' = shut other) by (destruct (dscript d); [destruct (offer other me a) as [|[c s|] [|y l]]|]; injection H as _ <-; reflexivity). now rewrite E.
    - injection H as _ <-. cbn [shut]. now rewrite S. }
  split; [rewrite G, app_length; lia|]. split; [|split; [|exact (rest_calls _ _ _ _ D)]].
  - intro O. destruct (B O) as [S T]. split; [exact (SM S)|]. pose proof (Forall_inv (C S)) as Q. cbn in Q. rewrite (quiet_step _ _ _ _ _ H (Q eq_refl)). exact T.
  - intro S. destruct (SH S) as [S0| ->]; [specialize (C S0); now inversion C|]. exact (D [] os eq_refl).
Qed.
Lemma talk_ended : forall os x y rs e, talk x y os = (rs, e) -> (ended_well true x y os -> ended_well true (fst e) (snd e) []) /\ (ended_well false y x os -> ended_well false (snd e) (fst e) []).
Proof.
  assert (GR : forall me other t r me', side_step me other t = (r, me') -> grows (dout (here me)) (dout (here me'))).
  { intros me other t r me' H. destruct t as [blen a|o]; [apply grows_same; exact (quiet_step _ _ _ _ _ H Logic.I)|]. cbn [side_step] in H. destruct (do_dop (here me) (DOut o)) as [r0 d] eqn:E. injection H as _ <-. exact (dop_grows _ _ _ _ E). }
  induction os as [|[w t] os IH]; intros x y rs e H; cbn [talk] in H; [injection H as <- <-; auto|]. destruct w.
  - destruct (side_step x y t) as [r x'] eqn:ES. destruct (talk x' y os) as [rs' e'] eqn:ET. injection H as <- <-. destruct (IH _ _ _ _ ET) as [P Q]. split; intro K; [apply P; exact (ended_me _ _ _ _ _ _ _ ES K)|].
    apply Q. exact (ended_other false _ _ _ _ _ _ ES K (GR _ _ _ _ _ ES)).
  - destruct (side_step y x t) as [r y'] eqn:ES. destruct (talk x y' os) as [rs' e'] eqn:ET. injection H as <- <-. destruct (IH _ _ _ _ ET) as [P Q]. split; intro K; [|apply Q; exact (ended_me _ _ _ _ _ _ _ ES K)].
    apply P. exact (ended_other true _ _ _ _ _ _ ES K (GR _ _ _ _ _ ES)).
Qed.
Theorem end_is_last : forall nel lsps cr an o os rs e w, talk (at_start nel lsps cr an o true) (at_start nel lsps cr an o false) os = (rs, e) -> closes_last (negb w) os ->
  over (end_of w e) = true -> shut (end_of (negb w) e) = true /\ all_arrived w e.
Proof.
  intros nel lsps cr an o os rs e w H C. destruct (talk_ended _ _ _ _ _ H) as [P Q]. unfold all_arrived.
  assert (K : ended_well w (end_of w e) (end_of (negb w) e) []); [|apply K].
  destruct w; [apply P|apply Q]; (split; [cbn; lia|split; [discriminate|split; [discriminate|exact C]]]).
Qed.

(** * What is heard *)
Lemma as_sent_last : forall cr u, exists v, as_sent cr (u ++ [0xA]) = v ++ [0xA].
Proof. intros [|] u; rewrite as_sent_app; [exists (as_sent true u ++ [0xD])|exists u]; cbn; rewrite <- ?app_assoc; reflexivity. Qed.
Lemma sent_no_bom : forall cr v, all_clean v -> forall t, as_sent cr v <> 0xFEFF :: t.
Proof.
  intros cr v A t E. destruct v as [|c v]; [destruct cr; discriminate|]. inversion A as [|? ? C _]; subst. apply clean_special in C. destruct C as (_ & _ & _ & C).
  destruct cr; cbn in E; [destruct (c =? 10); injection E as E1 _; [discriminate E1|]|injection E as E1 _]; apply C; exact E1.
Qed.
Lemma ok_clean : forall v, string_ok v -> all_clean v.
Proof. intros v H. apply Forall_allowed_clean. exact (proj2 (proj2 (ok_accepted v H))). Qed.
Lemma sent_translate : forall cr nel lsps v, string_ok v -> translate nel lsps (without_bom (as_sent cr v)) = ended_text v.
Proof.
  intros cr nel lsps v OK. pose proof (ok_clean v OK) as A. destruct OK as (_ & HS & HE).
  assert (without_bom (as_sent cr v) = as_sent cr v) as ->.
  { pose proof (sent_no_bom cr v A) as G. destruct (as_sent cr v) as [|c u]; [reflexivity|]. cbn. destruct (c =? 0xFEFF) eqn:E; [|reflexivity]. apply N.eqb_eq in E. subst c. exfalso. now apply (G u). }
  rewrite (translate_replaced _ _ _ _ (sent_replaced cr nel lsps v A)), concat_singles, guards_id, singles_newline by assumption.
  unfold ended_text. destruct v as [|c v _] using rev_ind; [reflexivity|]. rewrite last_opt_snoc. change LF with 0xA. destruct (c =? 0xA); cbn [negb]; [apply app_nil_r|reflexivity].
Qed.
Lemma ended_ok : forall v, string_ok v -> string_ok (ended_text v).
Proof. intros v OK. unfold ended_text. destruct (last_opt v) as [c|] eqn:E; [|now apply last_opt_none in E; subst v]. destruct (c =? 0xA); [exact OK|]. now apply LineProps.ok_snoc. Qed.
Lemma ended_assigned : forall v, Forall (fun c => is_assigned c = true) v -> Forall (fun c => is_assigned c = true) (ended_text v).
Proof.
  intros v OK. unfold ended_text. destruct (last_opt v) as [c|]; [|constructor]. destruct (c =? 0xA); [exact OK|]. apply Forall_app. split; [exact OK|]. constructor; [vm_compute; reflexivity|constructor].
Qed.
Lemma sent_gives : forall cr nel lsps v sc, string_ok v -> Forall (fun c => is_assigned c = true) v -> stream_text sc = as_sent cr v -> no_push sc -> gives nel lsps sc (ended_text v).
Proof.
  intros cr nel lsps v sc OK A E NP. destruct (session_terminates nel lsps sc) as [n H]. destruct (H (repeat 136%nat n)) as (k & rs & j & rest & R & RE).
  - apply Forall_forall. intros b IB. apply repeat_spec in IB. subst b. apply le_n.
  - rewrite repeat_length. apply le_n.
  - do 4 eexists. split; [exact R|]. split; [exact RE|]. destruct (session_end _ _ _ _ _ _ _ R RE) as (-> & _). rewrite converted_plain; rewrite ?E, ?(sent_translate cr nel lsps v OK); auto.
    + apply ok_pipeline; [now apply ended_ok|]. apply assigned_preceded. now apply ended_assigned.
    + left. rewrite E. exact (sent_no_bom cr v (ok_clean v OK)).
    + apply assigned_unguarded. now apply ended_assigned.
Qed.
Lemma plain_no_abandon : forall os, Forall plain_dop os -> Forall (fun o => o <> DOut OpAbandon) os.
Proof. intros os P. eapply Forall_impl; [|exact P]. intros x PX ->. destruct PX as [_ K]. now apply K. Qed.
Lemma calm_plain : forall sc, Forall calm sc -> no_fail sc /\ no_push sc.
Proof. intros sc C. rewrite Forall_forall in C. split; [intro F; exact (C _ F)|]. intros cs F. exact (C _ F). Qed.
(** The events of one end, completed so that all that was sent arrives. *)
Lemma whole_line : forall nel lsps cr an o os rs e w, talk (at_start nel lsps cr an o true) (at_start nel lsps cr an o false) os = (rs, e) ->
  Forall (fun x => x <> DOut OpAbandon) (ops_at w os) -> calm_line w os -> (over (end_of w e) = true -> all_arrived w e) ->
  exists sc tail, (all_arrived w e -> tail = []) /\ Forall calm sc /\ no_fail (sc ++ tail) /\ no_push (sc ++ tail) /\ stream_text (sc ++ tail) = emitted (inner (dout (here (end_of (negb w) e)))) /\
    existsb is_end sc = over (end_of w e) /\
    reads (new_input (nel w) (lsps w)) (sc ++ tail) (read_sizes (ops_at w os)) = (read_results (results_at w rs), din (here (end_of w e)), tail).
Proof.
  intros nel lsps cr an o os rs e w H NA CL OV. destruct (end_follows _ _ _ _ _ _ _ _ w H) as (sc & [A B C D E] & K). specialize (K CL). set (me := end_of w e) in *. set (you := end_of (negb w) e) in *.
  exists sc, (if (taken me =? length (emitted (inner (dout (here you)))))%nat then [] else [Chunk (skipn (taken me) (emitted (inner (dout (here you))))) End]). unfold all_arrived in *. fold me you in OV |- *.
  destruct (taken me =? length (emitted (inner (dout (here you)))))%nat eqn:T.
  - apply Nat.eqb_eq in T. split; [reflexivity|]. split; [exact K|]. rewrite app_nil_r. destruct (calm_plain sc K) as [NF NP]. split; [exact NF|]. split; [exact NP|]. split; [rewrite B, T; apply firstn_all|]. split; [exact D|].
    specialize (A []). rewrite app_nil_r in A. pose proof (duplex_reads _ _ _ _ A NA) as R. cbn [din dscript new_duplexer] in R. destruct (over me); exact R.
  - apply Nat.eqb_neq in T. destruct (over me) eqn:EO; [exfalso; exact (T (OV eq_refl))|]. split; [intro Q; contradiction|]. split; [exact K|].
    assert (KA : Forall calm (sc ++ [Chunk (skipn (taken me) (emitted (inner (dout (here you))))) End])) by (apply Forall_app; split; [exact K|]; constructor; [exact Logic.I|constructor]).
    destruct (calm_plain _ KA) as [NF NP]. split; [exact NF|]. split; [exact NP|]. split; [rewrite stream_more by exact D; cbn [stream_text]; rewrite ?app_nil_r, B; apply firstn_skipn|]. split; [exact D|].
    match goal with |- reads _ (_ ++ ?m) _ = _ => specialize (A m) end. pose proof (duplex_reads _ _ _ _ A NA) as R. cbn [din dscript new_duplexer] in R. exact R.
Qed.
Theorem talk_heard : forall nel lsps cr an o os rs e w, talk (at_start nel lsps cr an o true) (at_start nel lsps cr an o false) os = (rs, e) ->
  Forall (fun x => x <> DOut OpAbandon) (ops_at w os) -> calm_line w os -> closes_last (negb w) os ->
  an (negb w) = false -> Forall plain_dop (ops_at (negb w) os) -> all_written (negb w) rs ->
  let sent := written (ops_at (negb w) os) in string_ok sent -> Forall (fun c => is_assigned c = true) sent ->
  (exists more, ended_text sent = heard w rs ++ more) /\ (reached_end (read_results (results_at w rs)) -> heard w rs = ended_text sent).
Proof.
  intros nel lsps cr an o os rs e w H NA CL OV AN P AW sent OK AS. destruct (whole_line _ _ _ _ _ _ _ _ _ H NA CL (fun K => proj2 (end_is_last _ _ _ _ _ _ _ _ _ H OV K))) as (sc & tail & _ & _ & NF & NP & TX & _ & R).
  rewrite (end_sent _ _ _ _ _ _ _ _ _ H AN P AW) in TX. fold sent in TX. pose proof (sent_gives _ (nel w) (lsps w) _ _ OK AS TX NP) as G.
  destruct (received_is_prefix _ _ _ _ _ _ _ _ NF G R) as [X Y]. split; [exact X|]. intro RE. symmetry. exact (Y RE).
Qed.

(** * Nothing is held back after a line end *)
Definition quiet (x : tstate) : Prop := match snd x with Ground _ | Cr | Ff => True | _ => False end.
Lemma tstep_quiet : forall nel lsps x c, quiet x -> c <> 0x1B -> quiet (snd (tstep nel lsps x c)).
Proof.
  intros nel lsps [e t] c Q NE. apply N.eqb_neq in NE. unfold quiet in *. cbn [snd] in Q. unfold tstep, step, stub, step_ground, ground_char. cbn [snd st fst].
  change ESC with 0x1B. destruct t; try destruct Q; rewrite ?NE; repeat match goal with |- context [if ?b then _ else _] => destruct b end; exact Logic.I.
Qed.
Lemma tstep_lf : forall nel lsps x, quiet x -> snd (snd (tstep nel lsps x 0xA)) = Ground true.
Proof. intros nel lsps [e t] Q. unfold quiet in Q. cbn [snd] in Q. destruct t; try destruct Q; reflexivity. Qed.
Lemma trans_quiet : forall nel lsps cs x, quiet x -> Forall (fun c => c <> 0x1B) cs -> quiet (snd (trans nel lsps x cs)).
Proof.
  induction cs as [|c cs IH]; intros x Q F; [exact Q|]. inversion F as [|? ? F1 F2]; subst. cbn [trans]. pose proof (tstep_quiet nel lsps x c Q F1) as Q1. destruct (tstep nel lsps x c) as [o1 x1]. cbn [snd] in Q1.
  specialize (IH x1 Q1 F2). destruct (trans nel lsps x1 cs) as [o2 x2]. exact IH.
Qed.
Lemma feed_quiet : forall nel lsps evs new a, feed nel lsps abs0 evs = (new, a) -> Forall (fun e => snd e = Active) evs -> Forall (fun c => c <> 0x1B) (flat_map fst evs) ->
  quiet (a_ts a) /\ (last_opt (flat_map fst evs) = Some 0xA -> snd (a_ts a) = Ground true).
Proof.
  intros nel lsps evs. induction evs as [|[raw s] evs IH] using rev_ind; intros new a H AC F; [cbn in H; injection H as _ <-; split; [exact Logic.I|discriminate]|].
  rewrite feed_app in H. destruct (feed nel lsps abs0 evs) as [n1 a1] eqn:E1. cbn [feed] in H. destruct (absorb nel lsps a1 raw s) as [n2 a2] eqn:E2. injection H as _ <-.
  apply Forall_app in AC. destruct AC as [AC1 AC2]. pose proof (Forall_inv AC2) as ES. cbn in ES. subst s. rewrite flat_map_app in F |- *. cbn [flat_map fst] in F |- *. rewrite app_nil_r in F |- *. apply Forall_app in F. destruct F as [F1 F2].
  destruct (IH _ _ eq_refl AC1 F1) as [Q1 L1]. unfold absorb, pushed in E2. cbn [fin is_active] in E2.
  assert (FB : Forall (fun c => c <> 0x1B) (body (a_start a1) raw)).
  { unfold body. destruct (a_start a1); [|exact F2]. destruct raw as [|c raw]; [exact F2|]. destruct (c =? BOM); [now inversion F2|exact F2]. }
  pose proof (trans_quiet nel lsps _ _ Q1 FB) as Q2.
  assert (LQ : last_opt (body (a_start a1) raw) = Some 0xA -> snd (snd (trans nel lsps (a_ts a1) (body (a_start a1) raw))) = Ground true).
  { intro L. apply last_opt_some in L. destruct L as [t L]. rewrite L in FB |- *. apply Forall_app in FB. destruct FB as [FB _]. rewrite trans_app. pose proof (trans_quiet nel lsps t _ Q1 FB) as Q3.
    destruct (trans nel lsps (a_ts a1) t) as [o1 x1]. cbn [snd] in Q3. pose proof (tstep_lf nel lsps x1 Q3) as T. cbn [trans]. destruct (tstep nel lsps x1 0xA) as [o2 x2]. exact T. }
  assert (B : body (a_start a1) raw = raw \/ a1 = abs0 /\ evs = []).
  { destruct (a_start a1) eqn:SS; [right|left; reflexivity]. destruct evs as [|[r0 s0] evs] using rev_ind; [cbn in E1; injection E1 as _ <-; auto|].
    exfalso. rewrite feed_app in E1. destruct (feed nel lsps abs0 evs) as [n3 a3]. cbn [feed] in E1. unfold absorb in E1. destruct (pushed nel lsps a3 r0 s0). injection E1 as _ <-. discriminate. }
  destruct (trans nel lsps (a_ts a1) (body (a_start a1) raw)) as [o x] eqn:ET. cbn [snd] in Q2, LQ. injection E2 as _ <-. cbn [a_ts snd fst quiet]. split; [exact Q2|].
  intro L. unfold quiet in *. rewrite ReadFacts.last_opt_app in L. destruct (last_opt raw) as [c|] eqn:LR.
  - injection L as ->. apply LQ. destruct B as [->|[-> ->]]; [exact LR|]. cbn [a_start abs0 body]. destruct raw as [|c raw]; [discriminate|]. destruct (N.eqb_spec c BOM) as [->|_]; [|exact LR].
    change (BOM :: raw) with ([BOM] ++ raw) in LR. rewrite ReadFacts.last_opt_app in LR. destruct (last_opt raw); [exact LR|discriminate].
  - apply last_opt_none in LR. subst raw. assert (BE : body (a_start a1) [] = []) by (unfold body; now destruct (a_start a1)). rewrite BE in ET. cbn in ET. injection ET as _ <-. now apply L1.
Qed.
Lemma sent_no_esc : forall cr v, all_clean v -> Forall (fun c => c <> 0x1B) (as_sent cr v).
Proof.
  intros cr v A. induction A as [|c v C A IH]; [destruct cr; constructor|]. change (c :: v) with ([c] ++ v). rewrite as_sent_app. apply Forall_app. split; [|exact IH].
  pose proof (clean_special c C) as (_ & _ & K & _). destruct cr; cbn; [destruct (c =? 10)|]; repeat constructor; auto; discriminate.
Qed.
Lemma evs_active : forall sc, Forall calm sc -> existsb is_end sc = false -> forall evs x, evs_of sc = evs ++ [x] -> Forall (fun e => snd e = Active) evs.
Proof.
  induction sc as [|e sc IH]; intros C E evs x H.
  - cbn in H. destruct evs as [|y evs]; [constructor|]. injection H as _ H. destruct evs; discriminate.
  - inversion C as [|? ? C1 C2]; subst. cbn [existsb] in E. apply orb_false_iff in E. destruct E as [E1 E2]. destruct e as [cs [| |]|]; try destruct C1; try discriminate E1. cbn [evs_of] in H.
    destruct evs as [|y evs]; [constructor|]. injection H as <- H. constructor; [reflexivity|]. exact (IH C2 E2 _ _ H).
Qed.
Theorem talk_prompt : forall nel lsps cr an o os rs e w, talk (at_start nel lsps cr an o true) (at_start nel lsps cr an o false) os = (rs, e) ->
  Forall (fun x => x <> DOut OpAbandon) (ops_at w os) -> calm_line w os -> all_arrived w e -> left_room (read_sizes (ops_at w os)) (read_results (results_at w rs)) ->
  an (negb w) = false -> Forall plain_dop (ops_at (negb w) os) -> all_written (negb w) rs ->
  let sent := written (ops_at (negb w) os) in string_ok sent -> Forall (fun c => is_assigned c = true) sent ->
  (line_terminated sent -> heard w rs = sent) /\ (forall l u, sent = l ++ [0xA] ++ u -> exists v, heard w rs = l ++ [0xA] ++ v).
Proof.
  intros nel lsps cr an o os rs e w H NA CL AR LR AN P AW sent OK AS. destruct (whole_line _ _ _ _ _ _ _ _ _ H NA CL (fun _ => AR)) as (sc & tail & TL & CS & NF & NP & TX & OE & R). rewrite (TL AR) in *. rewrite app_nil_r in *. clear TL.
  rewrite (end_sent _ _ _ _ _ _ _ _ _ H AN P AW) in TX. fold sent in TX. pose proof (sent_gives _ (nel w) (lsps w) _ _ OK AS TX NP) as G.
  destruct (received_is_prefix _ _ _ _ _ _ _ _ NF G R) as [[held X] _]. fold (heard w rs) in X.
  assert (DH : delivered (read_results (results_at w rs)) = heard w rs) by (symmetry; exact (ReadProps.received_delivered _ _ _ _ _ _ (wf_new _ _) NF R)).
  assert (HO : holds (nel w) (lsps w) sc [] (read_sizes (ops_at w os)) (read_results (results_at w rs)) (din (here (end_of w e))) held).
  { split; [now rewrite app_nil_r|]. rewrite DH, <- X. exact G. }
  assert (ET : forall t, t <> [] -> ended_text t = t \/ ended_text t = t ++ [0xA]).
  { intros t NT. unfold ended_text. destruct (last_opt t) as [c|] eqn:EL; [destruct (c =? 0xA); auto|]. apply last_opt_none in EL. contradiction. }
  assert (FIRST : line_terminated sent -> heard w rs = sent).
  { intro LT. assert (ES : ended_text sent = sent) by (destruct LT as [->|[t ->]]; [reflexivity|]; unfold ended_text; rewrite last_opt_snoc; reflexivity). rewrite ES in X.
    assert (HN : held = []); [|subst held; now rewrite app_nil_r in X]. destruct LT as [LT|[t LT]]; [rewrite LT in X; symmetry in X; apply app_eq_nil in X; now destruct X|].
    destruct (room_state _ _ _ _ _ _ _ _ HO LR) as (W & A & I & [(Q & _)|(evs & E1 & E2 & E3 & E4)]); [exact Q|].
    destruct (absorb_last _ _ _ _ _ I E4) as [(Q & _)|(y & _ & _ & NG & _)]; [exact Q|]. exfalso. apply NG.
    assert (NE : existsb is_end sc = false).
    { apply not_true_is_false. intro K. apply existsb_exists in K. destruct K as (ev & K1 & K2). destruct ev as [cs [| |]|]; try discriminate K2. exact (E2 _ K1). }
    pose proof (ReadChunk.evs_text sc) as TE. rewrite E1, flat_map_app in TE. cbn [flat_map fst] in TE. rewrite !app_nil_r in TE. rewrite TX in TE.
    apply (feed_quiet _ _ _ _ _ E3 (evs_active sc CS NE _ _ E1)); rewrite TE; [exact (sent_no_esc _ _ (ok_clean _ OK))|]. rewrite LT. destruct (as_sent_last (cr (negb w)) t) as [z ->]. apply last_opt_snoc. }
  split; [exact FIRST|]. intros l u EL. assert (NS : sent <> []) by (rewrite EL; destruct l; discriminate).
  destruct (ET sent NS) as [ES|ES].
  - exists u. rewrite <- EL. apply FIRST. unfold ended_text in ES. destruct (last_opt sent) as [c|] eqn:LS; [|apply last_opt_none in LS; contradiction]. destruct (N.eqb_spec c 0xA) as [->|NC].
    + right. now apply last_opt_some.
    + exfalso. apply (f_equal (@length N)) in ES. rewrite app_length in ES. cbn in ES. lia.
  - rewrite ES in X. destruct (lines_prompt _ _ _ _ _ _ _ _ HO LR) as [->|(m & -> & NM)].
    + rewrite app_nil_r in X. exists (u ++ [0xA]). rewrite <- X, EL, <- !app_assoc. reflexivity.
    + rewrite app_assoc in X. apply app_inj_tail in X. destruct X as [X _]. rewrite EL in X.
      assert (K : forall (l h m : list N) u, l ++ [0xA] ++ u = h ++ m -> ~ In 0xA m -> exists v, h = l ++ [0xA] ++ v).
      { clear. intros l. induction l as [|c l IH]; intros h m u E NM.
        - destruct h as [|d h]; cbn in E; [exfalso; apply NM; rewrite <- E; now left|]. injection E as <- E. now exists h.
        - destruct h as [|d h]; cbn in E; [exfalso; apply NM; rewrite <- E; right; apply in_or_app; right; now left|]. injection E as <- E. destruct (IH h m u E NM) as [v ->]. now exists v. }
      exact (K _ _ _ _ X NM).
Qed.

(** * Whole lines *)
Lemma lines_written : forall nel lsps cr an o os rs e w, talk (at_start nel lsps cr an o true) (at_start nel lsps cr an o false) os = (rs, e) ->
  an w = false -> o w = [] -> Forall plain_dop (ops_at w os) -> Forall line_op (outs (ops_at w os)) -> all_written w rs ->
  string_ok (written (ops_at w os)) /\ line_terminated (written (ops_at w os)).
Proof.
  intros nel lsps cr an o os rs e w H AN EO P L AW. destruct (end_follows _ _ _ _ _ _ _ _ w H) as (sc & [A _ _ _ _] & _). specialize (A []). rewrite AN, EO in A.
  destruct (duplex_refines _ _ _ _ _ _ _ _ _ A P) as [S R]. destruct (sides_alive _ _ _ _ S eq_refl eq_refl AW (plain_no_abandon _ P)) as [F O].
  assert (A0 : aligned (new_doc [] []) (new_doc [] [])) by (unfold aligned; cbn; repeat split; now left).
  pose proof (sides_aligned _ _ _ _ _ A0 S L) as AL. set (d := spec_sides _ _ _ _) in *.
  assert (CL : exists w', close (dout (here (end_of w e))) = (None, w')).
  { cbn [dout] in R. destruct (op_refines (cr w) d _ OpClose R Logic.I) as [E1 _]. cbn [do_op spec_op] in E1. destruct AL as (_ & _ & _ & _ & LT & _). unfold spec_close in E1. rewrite F in E1.
    destruct (lt_end _ LT) as [_ [K|K]]; rewrite K in E1; unfold spec_call in E1; rewrite O in E1; cbn in E1; destruct (close (dout (here (end_of w e)))) as [[x|] w']; try discriminate E1; eauto. }
  destruct CL as [w' CL]. destruct (duplex_closed_lines _ _ _ _ _ _ _ _ _ _ A P L CL) as (X & Y & _). auto.
Qed.
Theorem talk_lines : forall nel lsps cr an o os rs e w, talk (at_start nel lsps cr an o true) (at_start nel lsps cr an o false) os = (rs, e) ->
  Forall (fun x => x <> DOut OpAbandon) (ops_at w os) -> calm_line w os -> closes_last (negb w) os ->
  an (negb w) = false -> o (negb w) = [] -> Forall plain_dop (ops_at (negb w) os) -> Forall line_op (outs (ops_at (negb w) os)) -> all_written (negb w) rs ->
  let sent := written (ops_at (negb w) os) in Forall (fun c => is_assigned c = true) sent ->
  (exists more, sent = heard w rs ++ more) /\ (reached_end (read_results (results_at w rs)) -> heard w rs = sent) /\
  (all_arrived w e -> left_room (read_sizes (ops_at w os)) (read_results (results_at w rs)) -> heard w rs = sent).
Proof.
  intros nel lsps cr an o os rs e w H NA CL OV AN EO P L AW sent AS. destruct (lines_written _ _ _ _ _ _ _ _ _ H AN EO P L AW) as [OK LT]. fold sent in OK, LT.
  assert (ES : ended_text sent = sent) by (destruct LT as [->|[t ->]]; [reflexivity|]; unfold ended_text; rewrite last_opt_snoc; reflexivity).
  destruct (talk_heard _ _ _ _ _ _ _ _ _ H NA CL OV AN P AW OK AS) as [X Y]. fold sent in X, Y. rewrite ES in X, Y. split; [exact X|]. split; [exact Y|].
  intros AR LR. exact (proj1 (talk_prompt _ _ _ _ _ _ _ _ _ H NA CL AR LR AN P AW OK AS) LT).
Qed.

(** * The end *)
Lemma shut_closed : forall os x y rs e w, talk x y os = (rs, e) -> shut (end_of w e) = true -> shut (end_of w (x, y)) = true \/ has_closed w os rs.
Proof.
  assert (ST : forall me other t r me', side_step me other t = (r, me') -> shut me' = true -> shut me = true \/ (t = TOut OpClose /\ r = DWrote None)).
  { intros me other t r me' H S. destruct t as [blen a|o]; cbn [side_step] in H; destruct (do_dop _ _) as [r0 d].
    - assert (E : shut me' = shut me) by (destruct (dscript d); [destruct (offer me other a) as [|[c s|] [|y l]]|]; injection H as _ <-; reflexivity). rewrite E in S. now left.
    - injection H as -> <-. cbn [shut] in S. apply orb_prop in S. destruct S as [S|S]; [now left|]. right. destruct o; try discriminate S. destruct r as [| [|] |]; try discriminate S. auto. }
  assert (UP : forall w o r os rs, has_closed w os rs -> has_closed w (o :: os) (r :: rs)) by (intros w o r os rs (i & A & B); now exists (Datatypes.S i)).
  induction os as [|[v t] os IH]; intros x y rs e w H S; cbn [talk] in H; [injection H as <- <-; now left|]. destruct v.
  - destruct (side_step x y t) as [r x'] eqn:ES. destruct (talk x' y os) as [rs' e'] eqn:ET. injection H as <- <-. destruct (IH _ _ _ _ _ ET S) as [K|K]; [|right; now apply UP].
    destruct w; cbn in *; [|now left]. destruct (ST _ _ _ _ _ ES K) as [Q|[-> ->]]; [now left|]. right. now exists 0%nat.
  - destruct (side_step y x t) as [r y'] eqn:ES. destruct (talk x y' os) as [rs' e'] eqn:ET. injection H as <- <-. destruct (IH _ _ _ _ _ ET S) as [K|K]; [|right; now apply UP].
    destruct w; cbn in *; [now left|]. destruct (ST _ _ _ _ _ ES K) as [Q|[-> ->]]; [now left|]. right. now exists 0%nat.
Qed.
Lemma end_used : forall nel lsps script sizes rs j script', reads (new_input nel lsps) script sizes = (rs, j, script') -> reached_end rs -> script' = [].
Proof.
  intros nel lsps script sizes rs j script' H (rs' & n & cs & ->).
  pose proof (reads_length _ _ _ _ _ _ H) as L. destruct sizes as [|b sizes _] using rev_ind; [rewrite app_length in L; cbn in L; lia|].
  destruct (reads_snoc _ _ _ _ _ _ _ H) as (rs1 & j1 & sc1 & r & cs' & R1 & R2 & E). apply app_inj_tail in E. destruct E as [<- E]. injection E as <- <-.
  destruct (reads_spec _ _ _ _ _ _ (wf_new nel lsps) R1) as (W1 & _). destruct (read_spec _ _ _ _ _ _ _ W1 R2) as (_ & _ & _ & C).
  destruct C as [(X & _)|[(X & _)|[(X & _)|(raw & s & n1 & cs2 & EI & _ & _ & AB & -> & EN & _ & C)]]]; try discriminate.
  destruct C as [(X & _)|(X & _)]; [|discriminate]. injection X as _ X. subst s. destruct sc1 as [|[c [| |]|] sc1]; cbn in EI; try discriminate EI; now injection EI as _ <-.
Qed.
Theorem talk_end : forall nel lsps cr an o os rs e w, talk (at_start nel lsps cr an o true) (at_start nel lsps cr an o false) os = (rs, e) ->
  Forall (fun x => x <> DOut OpAbandon) (ops_at w os) -> closes_last (negb w) os -> reached_end (read_results (results_at w rs)) -> has_closed (negb w) os rs /\ all_arrived w e.
Proof.
  intros nel lsps cr an o os rs e w H NA CL RE. destruct (over (end_of w e)) eqn:OV.
  - destruct (end_is_last _ _ _ _ _ _ _ _ _ H CL OV) as [S A]. split; [|exact A]. destruct (shut_closed _ _ _ _ _ _ H S) as [K|K]; [destruct w; discriminate K|exact K].
  - exfalso. destruct (end_follows _ _ _ _ _ _ _ _ w H) as (sc & [A _ _ _ _] & _). specialize (A [Fail]). rewrite OV in A. pose proof (duplex_reads _ _ _ _ A NA) as R. cbn [din dscript new_duplexer] in R.
    discriminate (end_used _ _ _ _ _ _ _ R RE).
Qed.
