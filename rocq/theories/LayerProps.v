(** A reader whose underlying stream is another reader. *)
From Coq Require Import NArith Arith List Bool Lia.
From Verif Require Import Base Ucd Norm Chars TextUtils SpecText TextFacts PipelineFacts IsoFacts
  Utf8 Utf8Facts Input Output ReadFacts ReadInv ReadSession SpecRead ReadChunk SpecEscape ReadProps SpecConv
  SpecWrite Strings SpecString StringProps LossyProps SpecMore CanonProps SpecCut CutProps SpecCat ReadMore ReadPieces SpecLayer OptionProps.
Import ListNotations.
Local Open Scope N_scope.

Lemma inner_script : forall script r script', inner_read script = (r, script') -> incl script' script.
Proof. intros [|[cs [| |]|] t] r script' H; cbn in H; injection H as <- <-; intros e HE; cbn in *; tauto. Qed.
Lemma read_script : forall i script blen r cs j script', wf i -> read i script blen = (r, cs, j, script') -> wf j /\ incl script' script.
Proof.
  intros i script blen r cs j script' W H. destruct (read_spec _ _ _ _ _ _ _ W H) as (WJ & _ & _ & C). split; [exact WJ|].
  destruct C as [(_ & _ & _ & _ & ->)|[(_ & -> & _)|[(_ & E & _)|(raw & s & new & cs2 & E & _)]]]; try apply incl_refl; now apply inner_script in E.
Qed.
Lemma push_in_script : forall sizes i script rs j rest n cs, wf i -> reads i script sizes = (rs, j, rest) -> In (ROk n Push, cs) rs ->
  exists c, In (Chunk c Push) script.
Proof.
  induction sizes as [|b sizes IH]; intros i script rs j rest n cs W H HI; cbn [reads] in H.
  - injection H as <- <- <-. contradiction.
  - destruct (read i script b) as [[[r c1] i'] script'] eqn:ER. destruct (reads i' script' sizes) as [[rs1 j1] rest1] eqn:E1. injection H as <- <- <-.
    destruct HI as [HI|HI].
    + injection HI as -> ->. destruct (push_genuine _ _ _ _ _ _ _ ER) as [c ->]. exists c. now left.
    + destruct (read_script _ _ _ _ _ _ _ W ER) as [W' S]. destruct (IH _ _ _ _ _ _ _ W' E1 HI) as [c HC]. exists c. now apply S.
Qed.
Lemma layer_no_push : forall nel lsps script sizes rs j rest, reads (new_input nel lsps) script sizes = (rs, j, rest) -> no_push script -> no_push (layer rs).
Proof.
  intros nel lsps script sizes rs j rest H NP cs HI. unfold layer in HI. apply in_map_iff in HI. destruct HI as ([r c] & E & HI). cbn [fst snd] in E.
  destruct r as [n s| |]; try discriminate. injection E as -> ->. destruct (push_in_script _ _ _ _ _ _ _ _ (wf_new nel lsps) H HI) as [c' HC]. exact (NP c' HC).
Qed.
Lemma layer_text : forall rs, ends_once rs -> stream_text (layer rs) = delivered rs.
Proof.
  intros rs (rs' & n & cs & -> & F). unfold layer, delivered. induction F as [|[r c] rs' (m & s & E & NE) F IH]; cbn; [now rewrite app_nil_r|].
  cbn [fst snd] in E. subst r. cbn. rewrite IH. now destruct s.
Qed.

(** Reading converted text again *)
Theorem read_again : forall nel lsps nel2 lsps2 script script2 text text2, gives nel lsps script text -> gives nel2 lsps2 script2 text2 ->
  stream_text script2 = text -> no_push script2 -> Forall (fun c => is_assigned c = true) text -> text2 = text.
Proof.
  intros nel lsps nel2 lsps2 script script2 text text2 (z & rs & j & rest & H & E & <-) (z2 & rs2 & j2 & rest2 & H2 & E2 & <-) ES NP A.
  destruct (session_is_text_buffers _ _ _ _ _ _ _ H E) as [OK LT].
  assert (ES' : stream_text script2 = stored false false (delivered rs)) by exact ES.
  apply (read_back false false nel2 lsps2 _ script2 z2 rs2 j2 rest2 OK LT A ES' NP); auto.
  left. intros t EB. rewrite ES in EB. apply (proj2 (ok_no_bom _ OK) t). exact EB.
Qed.
Theorem read_again_exact : forall nel lsps nel2 lsps2 script script2 text text2, gives nel lsps script text -> gives nel2 lsps2 script2 text2 ->
  stream_text script2 = text -> no_push script2 -> (text2 = text <-> ~ badly_cut script2).
Proof.
  intros nel lsps nel2 lsps2 script script2 text text2 (z & rs & j & rest & H & E & <-) (z2 & rs2 & j2 & rest2 & H2 & E2 & <-) ES NP.
  destruct (session_is_text_buffers _ _ _ _ _ _ _ H E) as [OK LT]. rewrite <- ES, (kept_exact_any _ _ _ _ _ _ _ NP H2 E2), ES.
  split; [tauto|]. intro NB. repeat (split; [assumption|]). split; [|exact NB].
  destruct (delivered_prefix _ _ _ _ _ _ _ H) as [more EP]. apply (preceded_prefix _ more). rewrite <- EP. apply converted_preceded.
Qed.
Theorem layered : forall nel lsps nel2 lsps2 script sizes rs j rest text2, reads (new_input nel lsps) script sizes = (rs, j, rest) -> ends_once rs -> no_push script ->
  gives nel2 lsps2 (layer rs) text2 ->
  (Forall (fun c => is_assigned c = true) (delivered rs) -> text2 = delivered rs) /\
  (text2 = delivered rs <-> ~ badly_cut (layer rs)).
Proof.
  intros nel lsps nel2 lsps2 script sizes rs j rest text2 H EO NP G2.
  assert (RE : reached_end rs) by (destruct EO as (rs' & n & cs & -> & _); now exists rs', n, cs).
  assert (G : gives nel lsps script (delivered rs)) by (exists sizes, rs, j, rest; auto).
  pose proof (layer_no_push _ _ _ _ _ _ _ H NP) as NP2. pose proof (layer_text _ EO) as ES. split.
  - intro A. exact (read_again _ _ _ _ _ _ _ _ G G2 ES NP2 A).
  - exact (read_again_exact _ _ _ _ _ _ _ _ G G2 ES NP2).
Qed.
