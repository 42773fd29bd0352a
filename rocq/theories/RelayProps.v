(** Texts through a chain of copies. *)
From Coq Require Import NArith Arith List Bool Lia.
From Verif Require Import Base Ucd Norm Chars TextUtils NormFacts CharFacts SpecText TextFacts PipelineFacts IsoFacts KeepFacts
  Utf8 Utf8Facts Input Output ReadFacts ReadInv ReadSession SpecRead SpecWrite WriteProps ReadChunk SpecEscape EscapeFacts EscapeRun ReadProps ReadPieces SpecConv ConvFacts SpecPush PushProps
  FuzzProps SpecMore CanonProps SpecCut CutProps SpecAsk SpecCertain CertainFacts CertainProps SpecCat SpecWellCut WellCut StringProps GapProps StoredCut Copy CopyProps CopyAny StdIo SpecStd StdProps StdAny SpecRelay.
From Verif Require WholeProps PromptProps LayerAny.
Import ListNotations.
Local Open Scope N_scope.
Local Opaque pipeline.

Lemma copied_assigned : forall rs, Forall (fun c => is_assigned c = true) (received rs) -> flat_map recopied (texts_read rs) = received rs.
Proof.
  induction rs as [|[[m s| |] t] rs IH]; intro A; [reflexivity| |exact (IH A)|exact (IH A)].
  change (received ((ROk m s, t) :: rs)) with (t ++ received rs) in *. change (texts_read ((ROk m s, t) :: rs)) with (t :: texts_read rs). cbn [flat_map].
  apply Forall_app in A. destruct A as [A1 A2]. rewrite (IH A2). f_equal. destruct t as [|c t]; [reflexivity|]. apply Forall_inv in A1. unfold recopied. now rewrite A1.
Qed.
Lemma close_emitted : forall w w', close w = (None, w') -> emitted (inner w') = emitted (inner w).
Proof.
  intros w w' H. unfold close, check_nl in H. cbn [set_exp wst] in H. destruct (wst w) as [[]| |]; cbn [and_then] in H; try discriminate H.
  unfold sink_call, sink_write in H. cbn [set_exp inner] in H. destruct (abandoned (inner w)); [discriminate H|]. destruct (script (inner w)) as [|[] o]; try discriminate H; injection H as <-; apply app_nil_r.
Qed.
(** What a hop makes of its text. *)
Theorem hop_text : forall h x y, hops h x y -> exists t, reads_text h t /\ string_ok t /\ line_terminated t /\ preceded t /\
  (how h <> ByStd \/ Forall (fun c => is_assigned c = true) t -> y = stored (bom h) (crlf h) t).
Proof.
  intros h x y ((E & NF & SS & B) & fuel & n & j & rest & w & w' & C & CL & <-).
  assert (G : exists rs k, reads (new_input (nel h) (lsps h)) (source h) (repeat (blen h) k) = (rs, j, rest) /\ reached_end rs /\
    (how h <> ByStd \/ Forall (fun c => is_assigned c = true) (received rs) -> emitted (inner w) = (if bom h then [0xFEFF] else []) ++ as_sent (crlf h) (received rs))).
  { destruct (how h); cbn [copies] in C.
    - destruct (copy_text_any _ _ _ _ _ _ _ _ _ _ _ _ _ C) as (k & rs & R & _ & RE & _ & EM). exists rs, k. auto.
    - destruct (copy_status_any _ _ _ _ _ _ _ _ _ _ _ _ C) as (k & rs & R & _ & RE & _ & EM). exists rs, k. auto.
    - destruct (std_copy_any _ _ _ _ _ _ _ _ _ _ _ _ SS C) as (k & rs & R & _ & RE & _ & EM). exists rs, k. split; [exact R|]. split; [exact RE|].
      intros [K|A]; [congruence|]. rewrite EM. f_equal. f_equal. now apply copied_assigned. }
  destruct G as (rs & k & R & RE & EM). exists (received rs).
  rewrite (ReadProps.received_delivered _ _ _ _ _ _ (wf_new _ _) NF R) in *.
  split; [now exists (repeat (blen h) k), rs, j, rest|]. destruct (session_is_text_buffers _ _ _ _ _ _ _ R RE) as [OK LT]. split; [exact OK|]. split; [exact LT|].
  split. { destruct (session_end _ _ _ _ _ _ _ R RE) as (-> & _). apply converted_preceded. }
  intro K. rewrite (close_emitted _ _ CL). exact (EM K).
Qed.
(** Reading what a hop has stored. *)
Lemma stored_grows : forall b c nel lsps t sc o, string_ok t -> line_terminated t -> preceded t -> stream_text sc = stored b c t -> no_push sc -> bom_visible sc -> gives nel lsps sc o ->
  (well_cut nel lsps sc /\ o = t) \/ (~ well_cut nel lsps sc /\ (length t < length o)%nat).
Proof.
  intros b c nel lsps t sc o OK LT PR E NP B G. pose proof (stored_exact _ _ _ _ _ _ _ OK LT E NP B G) as X.
  destruct (all_replaced nel lsps (segments_read sc)) as [rss F]. pose proof (gives_well _ _ _ _ _ G B F) as W.
  assert (ET : pipeline (pushed_text rss) = t).
  { assert (EQ : pushed_text rss = translate nel lsps (without_bom (stream_text sc))).
    { unfold segments_read in F. rewrite (segments_no_push _ NP) in F. inversion F as [|? rs ? ? R F0]; subst. inversion F0; subst.
      unfold pushed_text, guarded. cbn [map concat]. rewrite !app_nil_r, (translate_replaced _ _ _ _ R), final_newline_eq. reflexivity. }
    rewrite EQ, E, stored_translate by (auto; now apply ok_closes). now apply ok_pipeline. }
  destruct (converted_cut_badly nel lsps sc rss B F) as [[CB L]|[CB EG]]; rewrite <- PromptProps.gives_converted with (t := o) in * by exact G.
  - right. rewrite <- coded_pipeline, ET in L. split; [|exact L]. intro K. apply W in K. rewrite ET in K. subst o. lia.
  - left. assert (Q : o = pipeline (pushed_text rss)) by now rewrite coded_pipeline. split; [now apply W|now rewrite <- ET].
Qed.
Lemma stored_inj : forall b c b' c' s t, string_ok s -> line_terminated s -> string_ok t -> line_terminated t -> stored b c s = stored b' c' t -> s = t.
Proof.
  intros b c b' c' s t O1 L1 O2 L2 E. rewrite <- (stored_translate b c false false s), E by now apply ok_closes. now apply stored_translate, ok_closes.
Qed.
Lemma written_cons : forall h hs t y, hs <> [] -> (written_by (h :: hs) t y <-> written_by hs t y).
Proof.
  intros h hs t y NE. split.
  - intros (hs' & h' & E & ->). destruct hs' as [|x hs']; cbn in E; injection E as -> E; [now destruct NE|]. now exists hs', h'.
  - intros (hs' & h' & -> & ->). now exists (h :: hs'), h'.
Qed.
Lemma chain_nonnil : forall hs x y, chain hs x y -> hs <> [].
Proof. intros hs x y []; discriminate. Qed.
Lemma reads_text_det : forall h t t', reads_text h t -> reads_text h t' -> t = t'.
Proof. intros h t t' G G'. exact (WholeProps.gives_once _ _ _ _ _ G G'). Qed.

(** Assigned text, by any tools. *)
Theorem chain_assigned : forall hs x y h t, chain (h :: hs) x y -> reads_text h t -> Forall (fun c => is_assigned c = true) t -> Forall (fun h => no_push (source h)) hs ->
  written_by (h :: hs) t y.
Proof.
  induction hs as [|h2 hs IH]; intros x y h t C G A NP.
  - inversion C as [? ? ? H|? ? ? ? ? H K]; subst; [|inversion K]. destruct (hop_text _ _ _ H) as (t' & G' & _ & _ & _ & EY). rewrite (reads_text_det _ _ _ G' G) in *.
    exists [], h. split; [reflexivity|]. apply EY. now right.
  - inversion C as [|? ? ? m ? H K]; subst. destruct (hop_text _ _ _ H) as (t' & G' & OK & LT & PR & EY). rewrite (reads_text_det _ _ _ G' G) in *.
    specialize (EY (or_intror A)). apply written_cons; [discriminate|]. apply (IH m); auto; [|now inversion NP].
    assert (K' : exists z, hops h2 m z) by (inversion K; eauto). destruct K' as [z HZ]. pose proof HZ as ((E & NF & SS & B) & _).
    destruct (hop_text h2 m z) as (t2 & G2 & _); [exact HZ|]. unfold reads_text in *.
    rewrite EY in E. assert (t2 = t) as <-; [|exact G2]. destruct G2 as (zs & rs & j & rest & R & RE & <-).
    exact (read_back _ _ _ _ _ _ _ _ _ _ OK LT A E (Forall_inv NP) B R RE).
Qed.

(** Any text, by the tools that write text. *)
Lemma chain_grows : forall hs h x y t, chain (h :: hs) x y -> reads_text h t -> Forall (fun h => how h <> ByStd) (h :: hs) -> Forall (fun h => no_push (source h)) hs ->
  (Forall (fun h => well_cut (nel h) (lsps h) (source h)) hs /\ written_by (h :: hs) t y) \/
  (~ Forall (fun h => well_cut (nel h) (lsps h) (source h)) hs /\ exists t', string_ok t' /\ line_terminated t' /\ written_by (h :: hs) t' y /\ (length t < length t')%nat).
Proof.
  induction hs as [|h2 hs IH]; intros h x y t C G T NP.
  - left. split; [constructor|]. inversion C as [? ? ? H|? ? ? ? ? H K]; subst; [|inversion K]. destruct (hop_text _ _ _ H) as (t' & G' & _ & _ & _ & EY). rewrite (reads_text_det _ _ _ G' G) in *.
    exists [], h. split; [reflexivity|]. apply EY. left. exact (Forall_inv T).
  - inversion C as [|? ? ? m ? H K]; subst. destruct (hop_text _ _ _ H) as (t' & G' & OK & LT & PR & EY). rewrite (reads_text_det _ _ _ G' G) in *.
    specialize (EY (or_introl (Forall_inv T))). apply Forall_inv_tail in T.
    assert (K' : exists z, hops h2 m z) by (inversion K; eauto). destruct K' as [z HZ]. pose proof HZ as ((E & NF & SS & B) & _).
    destruct (hop_text h2 m z) as (t2 & G2 & _); [exact HZ|].
    rewrite EY in E. pose proof (stored_grows _ _ _ _ _ _ _ OK LT PR E (Forall_inv NP) B G2) as S.
    destruct (IH h2 m y t2 K G2 T (Forall_inv_tail NP)) as [[W Y]|(W & t3 & O3 & L3 & Y & L)]; destruct S as [[W2 ->]|[W2 L2]].
    + left. split; [now constructor|]. apply written_cons; [discriminate|exact Y].
    + right. split; [intro F; exact (W2 (Forall_inv F))|]. assert (OT : string_ok t2 /\ line_terminated t2) by (destruct G2 as (z0 & rs & j & rest & R & RE & <-); exact (session_is_text_buffers _ _ _ _ _ _ _ R RE)).
      exists t2. split; [apply OT|]. split; [apply OT|]. split; [apply written_cons; [discriminate|exact Y]|exact L2].
    + right. split; [intro F; exact (W (Forall_inv_tail F))|]. exists t3. split; [exact O3|]. split; [exact L3|]. split; [apply written_cons; [discriminate|exact Y]|exact L].
    + right. split; [intro F; exact (W2 (Forall_inv F))|]. exists t3. split; [exact O3|]. split; [exact L3|]. split; [apply written_cons; [discriminate|exact Y]|lia].
Qed.
Theorem chain_exact : forall hs h x y t, chain (h :: hs) x y -> reads_text h t -> Forall (fun h => how h <> ByStd) (h :: hs) -> Forall (fun h => no_push (source h)) hs ->
  (written_by (h :: hs) t y <-> Forall (fun h => well_cut (nel h) (lsps h) (source h)) hs).
Proof.
  intros hs h x y t C G T NP. destruct (chain_grows hs h x y t C G T NP) as [[W Y]|(W & t3 & O3 & L3 & Y & L)]; split; auto; [|contradiction].
  intros (h1 & l1 & E1 & Y1). destruct Y as (h2 & l2 & E2 & Y2). rewrite E1 in E2. apply app_inj_tail in E2. destruct E2 as [_ <-]. exfalso.
  assert (OT : string_ok t /\ line_terminated t) by (destruct G as (z0 & rs & j & rest & R & RE & <-); exact (session_is_text_buffers _ _ _ _ _ _ _ R RE)).
  rewrite Y1 in Y2. apply stored_inj in Y2; [subst; lia|apply OT|apply OT|exact O3|exact L3].
Qed.
(** A hop does not stop. *)
Theorem hop_total : forall h x, holds_text h x -> no_push (source h) -> (136 <= blen h)%nat -> exists y, hops h x y.
Proof.
  intros h x H NP B. assert (K : exists fuel n j rest w w', copies (how h) fuel (new_input (nel h) (lsps h)) (source h) (new_writer (crlf h) false (mksink (if bom h then [0xFEFF] else []) [] false)) (blen h) = Some (CopyOk n, j, rest, w) /\
    close w = (None, w')).
  { destruct H as (E & NF & SS & BV). destruct (how h); cbn [copies].
    - destruct (copy_text_copies (nel h) (lsps h) (source h) (blen h) (crlf h) (if bom h then [0xFEFF] else []) NF B) as [n F]. destruct (F n (le_n n)) as (k & rs & j & rest & w & _ & _ & C & _ & w' & CL & _). now exists n, (str_len (received rs)), j, rest, w, w'.
    - destruct (copy_status_copies (nel h) (lsps h) (source h) (blen h) (crlf h) (if bom h then [0xFEFF] else []) NF NP B) as [n F]. destruct (F n (le_n n)) as (k & rs & j & rest & w & _ & _ & C & _ & w' & CL & _). now exists n, (str_len (received rs)), j, rest, w, w'.
    - destruct (std_copy_copies (nel h) (lsps h) (source h) (blen h) (crlf h) (if bom h then [0xFEFF] else []) NF SS B) as [n F]. destruct (F n (le_n n)) as (k & rs & j & rest & w & _ & _ & C & _ & (w' & CL & _) & _). now exists n, (str_len (received rs)), j, rest, w, w'. }
  destruct K as (fuel & n & j & rest & w & w' & C & CL). exists (emitted (inner w')). split; [exact H|]. now exists fuel, n, j, rest, w, w'.
Qed.
(** A text that a program has stored. *)
Theorem chain_stored : forall hs b c t y, chain hs (stored b c t) y -> string_ok t -> line_terminated t -> preceded t -> Forall (fun h => how h <> ByStd) hs -> Forall (fun h => no_push (source h)) hs ->
  (written_by hs t y <-> Forall (fun h => well_cut (nel h) (lsps h) (source h)) hs).
Proof.
  intros [|h hs] b c t y C OK LT PR T NP; [now inversion C|].
  assert (K : exists z, hops h (stored b c t) z) by (inversion C; eauto). destruct K as [z HZ]. pose proof HZ as ((E & NF & SS & B) & _).
  destruct (hop_text _ _ _ HZ) as (t1 & G & O1 & L1 & _).
  pose proof (stored_grows _ _ _ _ _ _ _ OK LT PR E (Forall_inv NP) B G) as S.
  destruct (chain_grows hs h _ y t1 C G T (Forall_inv_tail NP)) as [[W Y]|(W & t3 & O3 & L3 & Y & L)].
  - destruct S as [[W2 ->]|[W2 L2]]; split; auto.
    + intros (h1 & l1 & E1 & Y1). destruct Y as (h2 & l2 & E2 & Y2). rewrite E1 in E2. apply app_inj_tail in E2. destruct E2 as [_ <-]. exfalso.
      rewrite Y1 in Y2. apply stored_inj in Y2; [subst; lia|assumption..].
    + intro F. destruct (W2 (Forall_inv F)).
  - split; [|intro F; destruct (W (Forall_inv_tail F))].
    intros (h1 & l1 & E1 & Y1). destruct Y as (h2 & l2 & E2 & Y2). rewrite E1 in E2. apply app_inj_tail in E2. destruct E2 as [_ <-]. exfalso.
    rewrite Y1 in Y2. apply stored_inj in Y2; [|assumption..]. subst t3. destruct S as [[_ ->]|[_ L2]]; lia.
Qed.
(** With pushes between the streams. *)
Theorem chain_pushed : forall hs h x y t, chain (h :: hs) x y -> reads_text h t -> Forall (fun h => how h <> ByStd) (h :: hs) -> Forall (fun h => bom h = false /\ crlf h = false) (h :: hs) ->
  Forall (fun h => Forall (fun s => starts_ok s /\ ends_ok s) (segments (source h)) /\ ~ badly_cut (source h)) hs -> y = t.
Proof.
  induction hs as [|h2 hs IH]; intros h x y t C G T F P.
  - inversion C as [? ? ? H|? ? ? ? ? H K]; subst; [|inversion K]. destruct (hop_text _ _ _ H) as (t' & G' & _ & _ & _ & EY). rewrite (reads_text_det _ _ _ G' G) in *.
    rewrite (EY (or_introl (Forall_inv T))). destruct (Forall_inv F) as [-> ->]. reflexivity.
  - inversion C as [|? ? ? m ? H K]; subst. destruct (hop_text _ _ _ H) as (t' & G' & _ & _ & _ & EY). rewrite (reads_text_det _ _ _ G' G) in *.
    specialize (EY (or_introl (Forall_inv T))). destruct (Forall_inv F) as [EB EC]. rewrite EB, EC in EY. change (stored false false t) with t in EY. subst m.
    assert (K' : exists z, hops h2 t z) by (inversion K; eauto). destruct K' as [z HZ]. pose proof HZ as ((E & NF & SS & B) & _).
    destruct (hop_text h2 t z) as (t2 & G2 & _); [exact HZ|].
    assert (t2 = t) as -> by exact (proj2 (LayerAny.read_again_any _ _ _ _ _ _ _ _ G G2 E) (Forall_inv P)).
    exact (IH h2 t y t K G2 (Forall_inv_tail T) (Forall_inv_tail F) (Forall_inv_tail P)).
Qed.
