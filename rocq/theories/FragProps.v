(** Colour sequences cut into several writes. *)
From Coq Require Import NArith Arith List Bool Lia ZifyBool ZifyNat ZifyN.
From Verif Require Import Base Ucd UcdTables Norm Chars TextTables TextUtils UcdFacts NormFacts CharFacts DocTable SpecText TextFacts PipelineFacts IsoFacts KeepFacts ConcatFacts
  Strings StringProps SpecString JoinProps Utf8 Utf8Facts Output SpecEscape SpecWrite WriteFacts WriteProps WriteColour SeamProps Input ReadFacts ReadSession SpecRead SpecColour ColourProps SpecFrag.
Import ListNotations.
Local Open Scope N_scope.
Arguments N.add : simpl never.
Arguments N.leb : simpl never.
Arguments N.ltb : simpl never.
Arguments N.eqb : simpl never.
Local Opaque pipeline.

(** * Parts of sequences *)
Definition mid (c : N) : Prop := parameter c \/ c = 0x5B \/ c = 0x6D.
Lemma mid_ascii : forall a, Forall mid a -> Forall (fun c => ascii_ok c = true) a.
Proof. intros a H. eapply Forall_impl; [|exact H]. intros c K. now apply ascii_part. Qed.
Lemma mid_clean : forall a, Forall mid a -> all_clean a.
Proof.
  intros a H. eapply Forall_impl; [|exact H]. intros c K. apply (ranges_all_spec _ _ _ range_clean). unfold mid, in_ranges, in_range, parameter in *. cbn [existsb fst snd]. lia.
Qed.
Lemma mid_no : forall a, Forall mid a -> ~ In LF a /\ ~ In ESC a.
Proof.
  intros a H. rewrite Forall_forall in H. split; intro K; apply H in K; unfold mid, parameter, LF, ESC in K; lia.
Qed.
Lemma body_mid : forall ps, Forall parameter ps -> Forall mid (body ps).
Proof.
  intros ps H. unfold body. constructor; [right; now left|]. apply Forall_app. split; [|repeat constructor; right; now right]. eapply Forall_impl; [|exact H]. intros c K. now left.
Qed.
(** The three shapes of a part of a sequence. *)
Inductive shape : list N -> Prop :=
| sh_nil : shape []
| sh_esc : shape [ESC]
| sh_csi : forall ps, Forall parameter ps -> shape (ESC :: 0x5B :: ps).
Lemma unfinished_shape : forall h, unfinished h -> shape h.
Proof.
  intros h (ps & r & HP & HR & E). destruct h as [|a h]; [constructor|]. unfold sgr in E. cbn in E. injection E as -> E. destruct h as [|b h]; [constructor|].
  cbn in E. injection E as -> E. apply sh_csi. destruct r as [|c r _] using rev_ind; [congruence|]. rewrite app_assoc in E. apply app_inj_tail in E. destruct E as [<- _].
  now apply Forall_app in HP.
Qed.
Lemma shape_unfinished : forall h, shape h -> unfinished h.
Proof.
  intros h [| |ps H]; [exists [], (sgr [])|exists [], [0x5B; 0x6D]|exists ps, [0x6D]]; (split; [auto|]); split; try discriminate; reflexivity.
Qed.
Lemma shape_no_lf : forall h, shape h -> ~ In LF h.
Proof.
  intros h [| |ps H] K; [destruct K|destruct K as [K|[]]; discriminate K|]. destruct K as [K|[K|K]]; try discriminate K. rewrite Forall_forall in H. apply H in K. unfold parameter, LF in K. lia.
Qed.
Lemma shape_cat : forall h, shape h -> categorize h = h.
Proof.
  intros h [| |ps H]; [reflexivity|reflexivity|]. unfold categorize. cbn [map]. f_equal. apply (clean_categorize (0x5B :: ps)). apply mid_clean. constructor; [right; now left|].
  eapply Forall_impl; [|exact H]. intros c K. now left.
Qed.
Lemma tail_mid : forall h, shape h -> h <> [] -> exists m, h = ESC :: m /\ Forall mid m.
Proof.
  intros h [| |ps H] N; [congruence|exists []; auto|]. exists (0x5B :: ps). split; [reflexivity|]. constructor; [right; now left|]. eapply Forall_impl; [|exact H]. intros c K. now left.
Qed.
Lemma pipe_tail : forall a h, shape h -> pipeline (a ++ h) = pipeline a ++ h.
Proof.
  intros a h H. destruct h as [|x h']; [now rewrite !app_nil_r|]. destruct (tail_mid _ H ltac:(discriminate)) as (m & E & M). rewrite E.
  rewrite !pipeline_conv. unfold isolate_unassigned. rewrite iso_sep by (vm_compute; reflexivity). pose proof (mid_ascii _ M) as B.
  rewrite <- (app_nil_r m) at 1. rewrite iso_ascii by exact B. cbn [isolate_go]. rewrite app_nil_r. rewrite conv_split by exact boring_ESC. do 2 f_equal.
  rewrite <- (app_nil_r m) at 1. rewrite conv_ascii; [|eapply Forall_impl; [|exact B]; intros c K; unfold ascii_ok in K; lia|intros ? ? K; discriminate K].
  change (conv []) with (nfc (stream_safe [])). change (stream_safe []) with (@nil N). now rewrite nfc_nil, app_nil_r.
Qed.
Lemma pipe_front : forall f t, Forall mid f -> starts_ok t -> pipeline (f ++ t) = f ++ pipeline t.
Proof.
  intros f t HF HS. pose proof (mid_ascii _ HF) as B. rewrite !pipeline_conv. unfold isolate_unassigned. rewrite iso_ascii by exact B. apply conv_ascii.
  - eapply Forall_impl; [|exact B]. intros c K. unfold ascii_ok in K. lia.
  - apply hstart_ok. apply iso_start, hstart_ok, HS.
Qed.
Lemma shape_starts : forall h, shape h -> starts_ok h.
Proof. intros h [| |ps H] c t E; [discriminate E| |]; injection E as <- _; exact start_ESC. Qed.
Lemma starts_app : forall a b, starts_ok a -> starts_ok b -> starts_ok (a ++ b).
Proof. intros [|c a] b HA HB; [exact HB|]. intros x t E. cbn in E. injection E as <- _. exact (HA c a eq_refl). Qed.

(** * The state machine *)
Definition open_state (h : list N) (st : wstate) : wstate := match h with [] => st | [_] => WEsc | _ => WCsi end.
(** [w] after the beginning [h] of a sequence *)
Definition opened (w : writer) (h : list N) : writer :=
  match h with [] => w | _ => mkwriter (buffer w) (crlf w) (expect w) (ansi w) (open_state h (wst w)) h (inner w) end.
Lemma sm_open : forall h w g, shape h -> ansi w = true -> wst w = WGround g -> sm_chars w h = (None, opened w h).
Proof.
  intros h w g [| |ps H] HA HW; [reflexivity| |].
  - cbn [sm_chars]. unfold sm_char. rewrite HW, HA, N.eqb_refl. cbn [andb]. unfold opened, open_state. now rewrite HA.
  - cbn [sm_chars]. unfold sm_char at 1. rewrite HW, HA, N.eqb_refl. cbn [andb]. unfold sm_char at 1. cbn [wst]. change (91 =? 0x5B) with true. cbn [buffer crlf expect ansi wst escseq inner app].
    rewrite sm_params by (auto; reflexivity). cbn [buffer crlf expect ansi wst escseq inner app]. unfold opened, open_state. now rewrite HA.
Qed.
(** [f] is nothing, or completes the sequence that [w] is in, which is [b]. *)
Definition fronted (w : writer) (f b : list N) : Prop :=
  f = [] /\ b = [] /\ (exists g, wst w = WGround g) \/
  f <> [] /\ (exists w0 o g ps, w = opened w0 o /\ ansi w0 = true /\ shape o /\ o <> [] /\ wst w0 = WGround g /\ Forall parameter ps /\ b = sgr ps /\ o ++ f = b).
Lemma sm_front : forall w f b, ansi w = true -> fronted w f b -> exists q, sm_chars w f = (None, built w b q).
Proof.
  intros w f b HA [(-> & -> & g & HG)|(NF & w0 & o & g & ps & -> & A0 & HS & NO & HG & HP & -> & E)].
  - exists (escseq w). cbn. unfold built. rewrite app_nil_r. now destruct w.
  - pose proof (sm_open o w0 g HS A0 HG) as S1. pose proof (sm_sgr ps w0 g A0 HG HP) as S2. rewrite <- E, sm_app, S1 in S2. exists (sgr ps). rewrite S2.
    destruct o as [|x o]; [congruence|]. unfold built, opened. cbn [buffer crlf expect ansi wst escseq inner]. rewrite E. reflexivity.
Qed.
Lemma fronted_mid : forall w f b, fronted w f b -> Forall mid f.
Proof.
  intros w f b [(-> & _)|(NF & w0 & o & g & ps & _ & _ & HS & NO & _ & HP & -> & E)]; [constructor|].
  destruct o as [|x o]; [congruence|]. unfold sgr in E. cbn in E. injection E as _ E. pose proof (body_mid ps HP) as B. unfold body in B. rewrite <- E in B. now apply Forall_app in B.
Qed.
Lemma after_front : forall w f b cs, fronted w f b -> ansi w = true -> exists g, after (b ++ cs) (wst w) = WGround g.
Proof.
  intros w f b cs [(_ & -> & g & HG)|(_ & w0 & o & g & ps & _ & _ & _ & _ & _ & _ & -> & _)] HA.
  - apply after_ground. eauto.
  - rewrite after_app. apply after_ground. unfold sgr. cbn [after]. eauto.
Qed.

(** * One write *)
Lemma fronted_last : forall w f b, fronted w f b -> f = [] \/ exists f' w0 o g ps, f = f' ++ [0x6D] /\ w = opened w0 o /\ ansi w0 = true /\ wst w0 = WGround g /\ shape o /\ Forall parameter ps /\ o ++ f' = ESC :: 0x5B :: ps.
Proof.
  intros w f b [(-> & _)|(NF & w0 & o & g & ps & -> & A0 & HS & NO & HG & HP & -> & E)]; [now left|right].
  destruct f as [|c f _] using rev_ind; [congruence|]. unfold sgr in E. change (0x1B :: 0x5B :: ps ++ [0x6D]) with ((ESC :: 0x5B :: ps) ++ [0x6D]) in E. rewrite app_assoc in E. apply app_inj_tail in E. destruct E as [E ->].
  exists f, w0, o, g, ps. repeat (split; [auto|]). exact E.
Qed.
Lemma raw_front : forall p h, shape h -> painted_ok p -> pipeline (source p ++ h) = rjoin (pipeline (lead p)) (raw_parts (rest p)) ++ h.
Proof. intros p h HH HP. rewrite pipe_tail by exact HH. unfold source. rewrite pipeline_rjoin by exact (proj2 HP). reflexivity. Qed.
Lemma raw_front_m : forall f p h, Forall mid f -> shape h -> painted_ok p -> pipeline ((f ++ [0x6D]) ++ source p ++ h) = f ++ rjoin (pipeline (0x6D :: lead p)) (raw_parts (rest p)) ++ h.
Proof.
  intros f p h HF HH HP. rewrite <- app_assoc. cbn [app]. rewrite pipe_front; [|exact HF|intros c t E; injection E as <- _; vm_compute; reflexivity]. f_equal.
  change (0x6D :: source p ++ h) with (join (0x6D :: lead p) (rest p) ++ h). rewrite pipe_tail by exact HH. now rewrite pipeline_rjoin by exact (proj2 HP).
Qed.
Lemma mid_init : forall f c, Forall mid (f ++ [c]) -> Forall mid f. Proof. intros f c H. now apply Forall_app in H. Qed.
Lemma fits_apart : forall f p, fits f p = true -> apart p = true. Proof. intros f p H. unfold fits in H. now apply andb_prop in H. Qed.
Lemma fits_lead : forall f p, fits f p = true -> f <> [] -> merges (lead p) = false.
Proof. intros f p H N. unfold fits in H. apply andb_prop in H. destruct H as [_ H]. destruct f; [congruence|]. now apply negb_true_iff in H. Qed.
Lemma whole_pipeline : forall w f b p h, fronted w f b -> shape h -> painted_ok p -> fits f p = true -> pipeline (f ++ source p ++ h) = f ++ shown p ++ h.
Proof.
  intros w f b p h HF HH HP FT. pose proof (fronted_mid _ _ _ HF) as HM. pose proof (fits_apart _ _ FT) as AP. destruct (fronted_last _ _ _ HF) as [->|(f' & w0 & o & g & ps & -> & _)].
  - cbn [app]. now rewrite pipe_tail, source_pipeline.
  - rewrite raw_front_m by (auto; now apply mid_init in HM). rewrite (merges_false _ (fits_lead _ _ FT ltac:(destruct f'; discriminate))). rewrite rjoin_apart by exact AP.
    rewrite <- app_assoc. reflexivity.
Qed.
Lemma whole_cat : forall f p h, Forall mid f -> shape h -> categorize (f ++ source p ++ h) = f ++ categorize (source p) ++ h.
Proof. intros f p h HF HH. now rewrite !cat_app, (clean_categorize f), (shape_cat h HH) by now apply mid_clean. Qed.
Lemma whole_converted : forall w f b p h, fronted w f b -> shape h -> painted_ok p -> fits f p = true -> all_clean (concat (pieces p)) ->
  converted (f ++ source p ++ h) = f ++ shown p ++ h.
Proof.
  intros w f b p h HF HH HP FT HC. rewrite converted_clean_pipeline; [exact (whole_pipeline _ _ _ _ _ HF HH HP FT)|].
  rewrite whole_cat by (auto; exact (fronted_mid _ _ _ HF)). now rewrite cat_source.
Qed.
Lemma front_machine : forall f b p h w, ansi w = true -> fronted w f b -> shape h -> painted_ok p -> fits f p = true -> all_clean (concat (pieces p)) ->
  exists q, state_machine w (f ++ source p ++ h) = (None, opened (built w (b ++ shown p) q) h).
Proof.
  intros f b p h w HA HF HH HP FO HC. pose proof (fits_apart _ _ FO) as AP. unfold state_machine. rewrite (whole_converted w f b) by assumption.
  rewrite sm_app. destruct (sm_front _ _ _ HA HF) as [q ->]. rewrite sm_app.
  destruct (after_front w f b [] HF HA) as [g G]. rewrite app_nil_r in G.
  destruct (machine_ok p (built w b q) g HA G HP HC AP) as [q' M]. unfold state_machine in M. rewrite (converted_ok p HP HC AP) in M. rewrite M, built_app.
  destruct (after_front w f b (shown p) HF HA) as [g' G']. exists q'. apply (sm_open h _ g'); [exact HH|exact HA|exact G'].
Qed.
(** [f] and then something the state machine refuses *)
Lemma front_refused : forall f b w t l h, ansi w = true -> fronted w f b -> Forall (fun x => Forall parameter (fst x) /\ followed (snd x)) l ->
  ~ In ESC t -> In SUB (t ++ concat (map snd l)) \/ Exists (fun x => highy (snd x)) l -> exists e w', sm_chars w (f ++ rjoin t l ++ h) = (Some e, w') /\ gone w w'.
Proof.
  intros f b w t l h HA HF L1 L2 L3. destruct (after_front w f b [] HF HA) as [g G]. rewrite app_nil_r in G. rewrite sm_app. destruct (sm_front _ _ _ HA HF) as [q ->].
  destruct (sm_rjoin_bad l t (built w b q) g HA G L1 L2 L3 h) as (e & w' & -> & K). exists e, w'. split; [reflexivity|exact K].
Qed.
Lemma front_pipe_bad : forall f b p h w, ansi w = true -> fronted w f b -> shape h -> painted_ok p -> In SUB (concat (pieces p)) \/ fits f p = false ->
  exists e w', sm_chars w (pipeline (f ++ source p ++ h)) = (Some e, w') /\ gone w w'.
Proof.
  intros f b p h w HA HF HH HP HB. pose proof (fronted_mid _ _ _ HF) as HM. pose proof HP as [HE HR]. pose proof (Forall_inv HE) as E1. pose proof (Forall_inv_tail HE) as E2.
  assert (G : f = [] \/ merges (lead p) = false -> pipeline (f ++ source p ++ h) = f ++ rjoin (pipeline (lead p)) (raw_parts (rest p)) ++ h ->
    exists e w', sm_chars w (pipeline (f ++ source p ++ h)) = (Some e, w') /\ gone w w').
  { intros HM' E. rewrite E. apply (front_refused f b); auto; [now apply raw_followed|now apply pipe_no_esc|]. destruct HB as [S|FT].
    - left. unfold pieces in S. cbn [concat] in S. apply in_app_or in S. apply in_or_app. destruct S as [S|S]; [left; now apply (pipeline_in SUB (lead p) kept_SUB)|right; now apply sub_raw].
    - right. apply merge_exists. change (apart p = false). unfold fits in FT. destruct (apart p); [|reflexivity]. exfalso. destruct HM' as [->|K]; [discriminate|rewrite K in FT; destruct f; discriminate]. }
  destruct (fronted_last _ _ _ HF) as [->|(f' & w0 & o & g & ps & -> & -> & A0 & HG & SO & HPS & EO)].
  - apply G; [now left|]. cbn [app]. now apply raw_front.
  - destruct (merges (lead p)) eqn:EM.
    + rewrite raw_front_m by (auto; now apply mid_init in HM). destruct (merges_true _ EM) as (c & u & EU & HC). rewrite EU.
      pose proof (sm_open (o ++ f') w0 g ltac:(rewrite EO; now constructor) A0 HG) as S1. rewrite sm_app, (sm_open o w0 g SO A0 HG) in S1. rewrite sm_app, S1. rewrite EO.
      unfold rjoin. cbn [app]. match goal with |- exists e w', sm_chars ?v (c :: ?r) = _ /\ _ => destruct (sm_high v c r eq_refl HC) as (e & w' & E & K) end. exists e, w'. split; [exact E|].
      destruct o; exact K.
    + apply G; [now right|]. rewrite raw_front_m by (auto; now apply mid_init in HM). rewrite (merges_false _ EM). rewrite <- app_assoc. reflexivity.
Qed.
Lemma front_bad : forall f b p h w, ansi w = true -> fronted w f b -> shape h -> painted_ok p -> ~ (all_clean (concat (pieces p)) /\ fits f p = true) ->
  exists e w', state_machine w (f ++ source p ++ h) = (Some e, w') /\ gone w w'.
Proof.
  intros f b p h w HA HF HH HP HC. pose proof (fronted_mid _ _ _ HF) as HM. unfold state_machine. destruct (all_clean_dec (concat (pieces p))) as [C|C].
  - rewrite converted_clean_pipeline by (rewrite whole_cat by assumption; now rewrite cat_source). apply (front_pipe_bad f b); auto. right. destruct (fits f p); [exfalso; apply HC; now split|reflexivity].
  - destruct (cat_painted p HP) as (HP1 & CAT & TX). pose proof (dirty_sub p HP C) as S. rewrite <- TX in S. set (p1 := mkpainted _ _) in *.
    unfold converted. rewrite whole_cat, CAT by assumption. destruct (_ && _); [|apply (front_pipe_bad f b); auto].
    unfold source. rewrite join_as_is. pose proof HP1 as [HE HR]. pose proof (Forall_inv HE) as E1. pose proof (Forall_inv_tail HE) as E2. apply (front_refused f b); auto; [now apply as_is_followed|].
    left. unfold pieces in S. cbn [concat] in S. apply in_app_or in S. apply in_or_app. destruct S as [S|S]; [now left|right; now apply sub_as_is].
Qed.
Lemma fits_dec : forall f p, (all_clean (concat (pieces p)) /\ fits f p = true) \/ ~ (all_clean (concat (pieces p)) /\ fits f p = true).
Proof. intros f p. destruct (all_clean_dec (concat (pieces p))) as [C|C]; [|right; tauto]. destruct (fits f p); [left; auto|right; intros [_ K]; discriminate]. Qed.

(** * Line ends *)
Definition poured (w : writer) (cs : list N) (q : list N) : writer :=
  mkwriter (buffer w ++ expand cs) (crlf w) (expect w) (ansi w) (after cs (wst w)) q (inner w).
Lemma front_lf : forall w f b, fronted w f b -> ~ In LF b.
Proof. intros w f b [(_ & -> & _)|(_ & w0 & o & g & ps & _ & _ & _ & _ & _ & HP & -> & _)]; [intros []|now apply param_LF]. Qed.
Lemma front_segs : forall n f b p h w, (length (source p) <= n)%nat -> ansi w = true -> fronted w f b -> shape h -> painted_ok p -> fits f p = true -> all_clean (concat (pieces p)) ->
  exists q, crlf_segs w (split_lf (f ++ source p ++ h)) = (None, opened (poured w (b ++ shown p) q) h).
Proof.
  induction n as [|n IH]; intros f b p h w HL HA HF HH HP FO HC; pose proof (proj1 (mid_no _ (fronted_mid _ _ _ HF))) as LFF; pose proof (shape_no_lf _ HH) as LFH; pose proof (front_lf _ _ _ HF) as LFB;
    (destruct (in_dec N.eq_dec LF (source p)) as [J|J];
    [|rewrite split_lf_none by (intro K; apply in_app_or in K; destruct K as [K|K]; [contradiction|]; apply in_app_or in K; destruct K; contradiction);
      cbn [crlf_segs crlf_rest]; destruct (front_machine f b p h w HA HF HH HP FO HC) as [q ->]; exists q;
      unfold poured; rewrite expand_none; [reflexivity|]; intro K; apply in_app_or in K; destruct K as [K|K]; [contradiction|];
      revert K; rewrite <- (source_pipeline p HP (fits_apart _ _ FO)); now apply pipeline_no_lf]).
  - destruct (source p); [destruct J|cbn in HL; lia].
  - destruct p as [t l]. destruct (split_painted l t HP J) as (p1 & p2 & A & B & C & D & E & F & AA & MM). unfold source in HL.
    assert (FT : fits f (mkpainted t l) = fits f p1 && fits [] p2) by (unfold fits; cbn [lead]; rewrite AA, MM; destruct (apart p1), (apart p2), f; cbn; now rewrite ?andb_true_r, ?andb_false_r). cbn [lead rest] in HL.
    unfold source at 1. cbn [lead rest]. rewrite A in *. unfold pieces in HC. cbn [lead rest] in HC. fold (texts_of t l) in HC. rewrite F in HC. apply all_clean_app in HC. destruct HC as [CA CB]. inversion CB as [|? ? _ CB']; subst.
    replace (f ++ (source p1 ++ LF :: source p2) ++ h) with ((f ++ source p1) ++ LF :: (source p2 ++ h)) by (rewrite <- !app_assoc; reflexivity).
    rewrite split_lf_cons by (intro K; apply in_app_or in K; destruct K; contradiction).
    rewrite FT in FO. apply andb_prop in FO. destruct FO as [FO1 FO2].
    cbn [crlf_segs]. destruct (front_machine f b p1 [] w HA HF sh_nil D FO1 CA) as [q1 M]. rewrite app_nil_r in M. rewrite M. cbn [opened].
    destruct (split_lf_nonnil (source p2 ++ h)) as (x & m & EX). rewrite EX. cbn [crlf_rest].
    set (w1 := built _ _ _). change (match state_machine (push_crlf w1) x with (None, w') => crlf_rest w' m | (Some _, _) as r => r end)
      with (crlf_segs (push_crlf w1) (x :: m)). rewrite <- EX.
    destruct (IH [] [] p2 h (push_crlf w1)) as [q K]; [rewrite app_length in HL; cbn in HL; lia|exact HA|left; split; [reflexivity|]; split; [reflexivity|]; now exists Newline|exact HH|exact E|exact FO2|exact CB'|].
    cbn [app] in K. rewrite K. exists q. rewrite C. assert (NL : ~ In LF (shown p1)) by (rewrite <- (source_pipeline p1 D (fits_apart _ _ FO1)); now apply pipeline_no_lf).
    assert (EA : after (b ++ shown p1 ++ LF :: shown p2) (wst w) = after (shown p2) (WGround Newline)).
    { change (LF :: shown p2) with ([LF] ++ shown p2). now rewrite !after_app. }
    assert (EE : expand (b ++ shown p1 ++ LF :: shown p2) = b ++ shown p1 ++ [CR; LF] ++ expand (shown p2)).
    { rewrite !expand_app, (expand_none (shown p1)), (expand_none b) by assumption. reflexivity. }
    unfold poured. rewrite EA, EE. unfold push_crlf, w1, built, set_buf, set_wst. cbn [buffer crlf expect ansi wst escseq inner]. now rewrite <- !app_assoc.
Qed.
Lemma front_segs_bad : forall n f b p h w, (length (source p) <= n)%nat -> ansi w = true -> fronted w f b -> shape h -> painted_ok p -> ~ (all_clean (concat (pieces p)) /\ fits f p = true) ->
  exists e w', crlf_segs w (split_lf (f ++ source p ++ h)) = (Some e, w') /\ gone w w'.
Proof.
  induction n as [|n IH]; intros f b p h w HL HA HF HH HP HC; pose proof (proj1 (mid_no _ (fronted_mid _ _ _ HF))) as LFF; pose proof (shape_no_lf _ HH) as LFH;
    (destruct (in_dec N.eq_dec LF (source p)) as [J|J];
    [|rewrite split_lf_none by (intro K; apply in_app_or in K; destruct K as [K|K]; [contradiction|]; apply in_app_or in K; destruct K; contradiction);
      cbn [crlf_segs crlf_rest]; destruct (front_bad f b p h w HA HF HH HP HC) as (e & w' & -> & K); exists e, w'; split; [reflexivity|exact K]]).
  - destruct (source p); [destruct J|cbn in HL; lia].
  - destruct p as [t l]. destruct (split_painted l t HP J) as (p1 & p2 & A & B & C & D & E & F & AA & MM). unfold source in HL.
    assert (FT : fits f (mkpainted t l) = fits f p1 && fits [] p2) by (unfold fits; cbn [lead]; rewrite AA, MM; destruct (apart p1), (apart p2), f; cbn; now rewrite ?andb_true_r, ?andb_false_r). cbn [lead rest] in HL.
    unfold source at 1. cbn [lead rest]. rewrite A in *. unfold pieces in HC. cbn [lead rest] in HC. fold (texts_of t l) in HC. rewrite F, FT in HC.
    replace (f ++ (source p1 ++ LF :: source p2) ++ h) with ((f ++ source p1) ++ LF :: (source p2 ++ h)) by (rewrite <- !app_assoc; reflexivity).
    rewrite split_lf_cons by (intro K; apply in_app_or in K; destruct K; contradiction).
    cbn [crlf_segs]. destruct (fits_dec f p1) as [[CA FO1]|CA].
    2:{ destruct (front_bad f b p1 [] w HA HF sh_nil D CA) as (e & w' & M & K). rewrite app_nil_r in M. rewrite M. exists e, w'. split; [reflexivity|exact K]. }
    assert (CB : ~ (all_clean (concat (pieces p2)) /\ fits [] p2 = true)) by (intros [CB FO2]; apply HC; split; [apply all_clean_app; split; [exact CA|constructor; [exact clean_LF|exact CB]]|now rewrite FO1, FO2]).
    destruct (front_machine f b p1 [] w HA HF sh_nil D FO1 CA) as [q1 M]. rewrite app_nil_r in M. rewrite M. cbn [opened].
    destruct (split_lf_nonnil (source p2 ++ h)) as (x & m & EX). rewrite EX. cbn [crlf_rest].
    set (w1 := built _ _ _). change (match state_machine (push_crlf w1) x with (None, w') => crlf_rest w' m | (Some _, _) as r => r end)
      with (crlf_segs (push_crlf w1) (x :: m)). rewrite <- EX.
    destruct (IH [] [] p2 h (push_crlf w1)) as (e & w' & M2 & K); [rewrite app_length in HL; cbn in HL; lia|exact HA|left; split; [reflexivity|]; split; [reflexivity|]; now exists Newline|exact HH|exact E|exact CB|].
    cbn [app] in M2. rewrite M2. exists e, w'. split; [reflexivity|exact K].
Qed.
Lemma front_write : forall f b p h w, ansi w = true -> fronted w f b -> shape h -> painted_ok p -> fits f p = true -> all_clean (concat (pieces p)) ->
  exists q, write_str w (f ++ source p ++ h) = write_buffer (opened (laid w (b ++ shown p) q) h).
Proof.
  intros f b p h w HA HF HH HP FO HC. unfold write_str, laid, as_sent. destruct (crlf w) eqn:EC.
  - destruct (front_segs _ f b p h w (le_n _) HA HF HH HP FO HC) as [q ->]. exists q. unfold poured. cbn [and_then]. now rewrite EC.
  - destruct (front_machine f b p h w HA HF HH HP FO HC) as [q ->]. exists q. unfold built. cbn [and_then]. now rewrite EC.
Qed.
Lemma front_write_bad : forall f b p h w, ansi w = true -> fronted w f b -> shape h -> painted_ok p -> ~ (all_clean (concat (pieces p)) /\ fits f p = true) ->
  exists e w', write_str w (f ++ source p ++ h) = (Some e, w') /\ gone w w'.
Proof.
  intros f b p h w HA HF HH HP HC. unfold write_str. destruct (crlf w).
  - destruct (front_segs_bad _ f b p h w (le_n _) HA HF HH HP HC) as (e & w' & -> & K). cbn. eauto.
  - destruct (front_bad f b p h w HA HF HH HP HC) as (e & w' & -> & K). cbn. eauto.
Qed.
Lemma part_write : forall o f w g, ansi w = true -> wst w = WGround g -> o <> [] -> shape (o ++ f) -> shape o -> write_str (opened w o) f = write_buffer (opened w (o ++ f)).
Proof.
  intros o f w g HA HW NO HS HO. assert (M : Forall mid f).
  { destruct (tail_mid (o ++ f) HS) as (m & E & M); [destruct o; [congruence|discriminate]|]. destruct o as [|x o]; [congruence|]. cbn in E. injection E as _ E. rewrite <- E in M. now apply Forall_app in M. }
  destruct (mid_no f M) as [LFF _].
  assert (CV : converted f = f).
  { assert (P : pipeline f = f).
    { rewrite <- (app_nil_r f) at 1. rewrite pipe_front; [|exact M|intros ? ? K; discriminate K]. replace (pipeline []) with (@nil N) by (vm_compute; reflexivity). apply app_nil_r. }
    unfold converted. rewrite (clean_categorize f) by now apply mid_clean. rewrite P. now destruct (_ && _). }
  assert (SM : state_machine (opened w o) f = (None, opened w (o ++ f))).
  { unfold state_machine. rewrite CV. pose proof (sm_open (o ++ f) w g HS HA HW) as S. rewrite sm_app, (sm_open o w g HO HA HW) in S. exact S. }
  unfold write_str. destruct (crlf (opened w o)); [rewrite split_lf_none by exact LFF; cbn [crlf_segs crlf_rest]|]; rewrite SM; reflexivity.
Qed.

(** * Histories *)
Definition orefines (cr : bool) (o : list N) (d : doc) (w : writer) : Prop :=
  if failed d then dead w /\ emitted (inner w) = sent d else shape o /\ exists w0, w = opened w0 o /\ crefines cr d w0.
Lemma crefines_dead : forall cr o d w, crefines cr d w -> failed d = true -> orefines cr o d w.
Proof.
  intros cr o d w (_ & _ & _ & _ & H3 & H4 & _ & H6) F. unfold orefines. rewrite F in *. cbn in *. repeat split; auto; congruence.
Qed.
Lemma gone_dead : forall cr o d w0 h w', crefines cr d w0 -> gone (opened w0 h) w' -> orefines cr o (fail d) w'.
Proof.
  intros cr o d w0 h w' (_ & _ & _ & _ & H3 & _) (_ & _ & _ & G4 & G5). unfold orefines. cbn in *. rewrite G5. unfold opened. destruct h; cbn; repeat split; auto; rewrite G5; reflexivity.
Qed.
Lemma wb_opened : forall w h r w1, write_buffer w = (r, w1) -> exists w', write_buffer (opened w h) = (r, w') /\
  match r with None => w' = opened w1 h | Some _ => dead w1 -> dead w' /\ emitted (inner w') = emitted (inner w1) end.
Proof.
  intros [b cr ex an st es k] [|x h] r w1 H; cbn [opened]; [exists w1; split; [exact H|]; destruct r; auto|].
  unfold write_buffer in *. cbn [buffer crlf expect ansi wst escseq inner set_exp] in *. destruct (ex && _).
  - injection H as <- <-. eexists. split; [reflexivity|]. intros [D1 D2]. split; [split; [reflexivity|exact D2]|reflexivity].
  - destruct (sink_write k b) as [okk k'] eqn:EK. destruct okk; injection H as <- <-; (eexists; split; [reflexivity|]); [reflexivity|]. intros [D1 D2]. split; [split; [reflexivity|exact D2]|reflexivity].
Qed.
Lemma send_opened : forall cr d w0 t q h, crefines cr d w0 -> failed d = false -> shape h ->
  ok (fst (write_buffer (opened (laid w0 t q) h))) = fst (spec_send cr d t) /\ orefines cr h (snd (spec_send cr d t)) (snd (write_buffer (opened (laid w0 t q) h))).
Proof.
  intros cr d w0 t q h [HA HR] EF HH. destruct (wb_both (laid w0 t q)) as [B A].
  destruct (send_refines cr d (plainly w0) t HR EF) as [E R]. change (set_buf _ _) with (plainly (laid w0 t q)) in E, R. rewrite B in E, R. cbn [fst snd] in E, R.
  destruct (write_buffer (laid w0 t q)) as [r w1] eqn:EW. cbn [fst snd] in *. destruct (wb_opened _ h _ _ EW) as (w' & -> & K). cbn [fst snd]. split; [exact E|].
  assert (C : crefines cr (snd (spec_send cr d t)) w1) by (split; [rewrite A; exact HA|exact R]).
  assert (FD : failed (snd (spec_send cr d t)) = negb (fst (spec_send cr d t))).
  { unfold spec_send. destruct (_ && _); [reflexivity|]. destruct (outcomes d) as [|[|n] o]; reflexivity. }
  destruct r as [e|]; cbn [ok] in E; rewrite <- E in FD; cbn [negb] in FD.
  - pose proof (crefines_dead cr h _ _ C FD) as D. unfold orefines in *. rewrite FD in *. destruct D as [D1 D2]. destruct (K D1) as [K1 K2]. split; [exact K1|congruence].
  - unfold orefines. rewrite FD. split; [exact HH|]. exists w1. split; [exact K|exact C].
Qed.
Lemma opened_laid : forall w0 o t q, t <> [] -> laid (opened w0 o) t q = laid w0 t q.
Proof. intros w0 [|x o] [|c t] q H; try congruence; reflexivity. Qed.
Theorem fop_refines : forall cr o d w x, orefines cr o d w -> fop_ok o x ->
  ok (fst (do_op w (fop_op x))) = fst (spec_fop cr o d x) /\ orefines cr (left_open o x) (snd (spec_fop cr o d x)) (snd (do_op w (fop_op x))).
Proof.
  intros cr o d w x HR HO. destruct (failed d) eqn:EF.
  - assert (D : dead w /\ emitted (inner w) = sent d) by (unfold orefines in HR; now rewrite EF in HR). destruct D as [D1 D2].
    destruct (do_op w (fop_op x)) as [r w'] eqn:EO. destruct (dead_op _ _ _ _ D1 EO) as (D1' & D2' & NR). cbn [fst snd].
    assert (K : fop_op x <> OpAbandon -> spec_fop cr o d x = (false, d) \/ spec_fop cr o d x = (false, fail d)).
    { intro NA. destruct x as [f p h|f|s| | |]; cbn [spec_fop]; unfold spec_write_text, spec_flush, spec_close; rewrite ?EF; auto; [destruct o; auto|destruct o; auto|exfalso; now apply NA]. }
    assert (G : forall d', failed d' = true -> sent d' = sent d -> orefines cr (left_open o x) d' w') by (intros d' F S; unfold orefines; rewrite F; split; [exact D1'|congruence]).
    destruct x as [f p h|f|s| | |]; try (destruct (K ltac:(discriminate)) as [->| ->]; cbn [fst snd]; (split; [destruct r; [reflexivity|exfalso; now apply NR]|]); apply G; auto; fail).
    cbn in EO. injection EO as <- <-. cbn [fst snd spec_fop]. split; [reflexivity|]. apply G; reflexivity.
  - assert (HR' := HR). unfold orefines in HR'. rewrite EF in HR'. destruct HR' as (HS & w0 & -> & HC). pose proof HC as [HA HC']. destruct (crefines_ground _ _ _ HC) as [g HG].
    assert (AO : ansi (opened w0 o) = true) by (destruct o; exact HA).
    assert (CA : forall c, crefines cr d w0 -> (forall b d', spec_cop cr d c = (b, d') -> cop_ok c -> o = [] ->
      ok (fst (do_op (opened w0 o) (cop_op c))) = b /\ (failed d' = true -> orefines cr o d' (snd (do_op (opened w0 o) (cop_op c)))) /\ (failed d' = false -> orefines cr o d' (snd (do_op (opened w0 o) (cop_op c)))))).
    { intros c H b d' ES CO ->. cbn [opened]. destruct (cop_refines cr d w0 c H CO) as [E R]. rewrite ES in E, R. cbn [fst snd] in E, R. split; [exact E|]. split; intro F.
      - now apply crefines_dead.
      - unfold orefines. rewrite F. split; [constructor|]. eexists. split; [reflexivity|exact R]. }
    destruct x as [f p h|f|s| | |]; cbn [fop_ok fop_op do_op spec_fop left_open] in *.
    + rewrite EF. destruct HO as (HP & HH & HF). apply unfinished_shape in HH.
      assert (FR : exists b, fronted (opened w0 o) f b /\ fop_shown o (FWrite f p h) = b ++ shown p /\ (f <> [] -> b <> []) /\ (f = [] -> o = [])).
      { destruct HF as [[-> ->]|(NF & NO & ps & HPS & E)].
        - exists []. split; [left; split; [reflexivity|]; split; [reflexivity|]; now exists g|]. split; [reflexivity|]. split; [congruence|]. reflexivity.
        - exists (sgr ps). split; [right; split; [exact NF|]; exists w0, o, g, ps; repeat (split; [auto|]); exact E|]. cbn [fop_shown]. destruct f as [|c f]; [congruence|]. rewrite <- E.
          split; [reflexivity|]. split; [intros _; destruct o; discriminate|]. discriminate. }
      destruct FR as (b & FR & SH & NB & OF). rewrite SH.
      destruct (forallb allowedb (concat (pieces p)) && fits f p) eqn:EA; cbn [negb].
      * apply andb_prop in EA. destruct EA as [EA FO]. apply all_allowed in EA. destruct (front_write f b p h _ AO FR HH HP FO EA) as [q ->].
        assert (EL : laid (opened w0 o) (b ++ shown p) q = laid w0 (b ++ shown p) q).
        { destruct f as [|c f]; [rewrite OF; reflexivity|]. apply opened_laid. destruct b; [exfalso; apply NB; [discriminate|reflexivity]|discriminate]. }
        rewrite EL. now apply send_opened.
      * assert (EA' : ~ (all_clean (concat (pieces p)) /\ fits f p = true)) by (intros [K FO]; apply all_allowed in K; rewrite K, FO in EA; discriminate).
        destruct (front_write_bad f b p h _ AO FR HH HP EA') as (e & w' & -> & G). cbn [fst snd ok]. split; [reflexivity|]. exact (gone_dead _ _ _ _ _ _ HC G).
    + rewrite EF. destruct HO as [NO HU]. apply unfinished_shape in HU. rewrite (part_write o f w0 g HA HG NO HU HS).
      assert (EL : w0 = laid w0 [] (escseq w0)) by (unfold laid; replace (as_sent (crlf w0) []) with (@nil N) by (now destruct (crlf w0)); rewrite app_nil_r; now destruct w0).
      rewrite EL. now apply send_opened.
    + unfold spec_write_text. rewrite EF. destruct HO as [NS SS]. rewrite write_text_eq by exact NS.
      assert (EL : set_buf (set_wst (opened w0 o) (after s (wst (opened w0 o)))) (buffer (opened w0 o) ++ as_sent (crlf (opened w0 o)) s) = opened (laid w0 s (escseq (opened w0 o))) []).
      { destruct o as [|y o]; destruct s as [|c s]; try congruence; reflexivity. }
      rewrite EL. apply send_opened; auto. constructor.
    + destruct o as [|y o].
      * destruct (spec_flush d) as [b d'] eqn:ES. destruct (CA CFlush HC b d' ES I eq_refl) as (E & R1 & R2). cbn [cop_op do_op] in *. split; [exact E|]. cbn [snd]. destruct (failed d'); auto.
      * cbn [opened fst snd]. unfold flush. cbn [wst open_state]. destruct o; cbn [fst snd ok]; (split; [reflexivity|exact HR]).
    + destruct o as [|y o].
      * destruct (spec_close d) as [b d'] eqn:ES. destruct (CA CClose HC b d' ES I eq_refl) as (E & R1 & R2). cbn [cop_op do_op] in *. split; [exact E|]. cbn [snd]. destruct (failed d'); auto.
      * destruct HC' as (_ & _ & _ & H3 & _). cbn in H3. unfold close, check_nl. cbn [opened set_exp wst open_state]. destruct o; cbn; (split; [reflexivity|]); unfold orefines; cbn; repeat split; auto.
    + destruct HC' as (_ & _ & _ & H3 & _). cbn in H3. cbn [fst snd]. split; [reflexivity|]. unfold orefines. cbn [failed fail]. destruct o; repeat split; auto.
Qed.
Theorem fops_refine : forall xs cr o d w, orefines cr o d w -> fops_ok o xs ->
  map ok (fst (do_ops w (map fop_op xs))) = fst (spec_fops cr o d xs) /\
  orefines cr (fst (snd (spec_fops cr o d xs))) (snd (snd (spec_fops cr o d xs))) (snd (do_ops w (map fop_op xs))).
Proof.
  induction xs as [|x xs IH]; intros cr o d w HR HP; [split; [reflexivity|exact HR]|].
  destruct HP as [P1 P2]. destruct (fop_refines cr o d w x HR P1) as [E HR']. cbn [map do_ops spec_fops].
  destruct (do_op w (fop_op x)) as [r w']. destruct (spec_fop cr o d x) as [b d']. cbn [fst snd] in *. specialize (IH cr (left_open o x) d' w' HR' P2).
  destruct (do_ops w' (map fop_op xs)) as [rs w'']. destruct (spec_fops cr (left_open o x) d' xs) as [bs e]. cbn [fst snd map] in *. destruct IH as [IH1 IH2].
  split; [congruence|exact IH2].
Qed.
Lemma new_orefines : forall cr p o, orefines cr [] (new_doc p o) (new_writer cr true (mksink p o false)).
Proof. intros. unfold orefines. cbn [failed new_doc]. split; [constructor|]. eexists. split; [reflexivity|apply new_crefines]. Qed.
Theorem cut_histories : forall cr p o xs rs w, do_ops (new_writer cr true (mksink p o false)) (map fop_op xs) = (rs, w) -> fops_ok [] xs ->
  let '(bs, (h, d)) := spec_fops cr [] (new_doc p o) xs in
  map ok rs = bs /\ emitted (inner w) = sent d /\ abandoned (inner w) = failed d /\
  drop_panics w = negb (failed d || match h, last_opt (text d) with [], None => true | [], Some c => c =? 0xA | _, _ => false end).
Proof.
  intros cr p o xs rs w H HP. destruct (fops_refine xs cr _ _ _ (new_orefines cr p o) HP) as [E R]. rewrite H in E, R. cbn [fst snd] in *.
  destruct (spec_fops cr [] (new_doc p o) xs) as [bs [h d]]. cbn [fst snd] in *. split; [exact E|]. unfold orefines in R. destruct (failed d) eqn:EF.
  - destruct R as [[R1 R2] R3]. split; [exact R3|]. split; [exact R2|]. unfold drop_panics. now rewrite R1.
  - destruct R as (HS & w0 & -> & HA & _ & _ & _ & R1 & R2 & _ & R4). rewrite EF in *. cbn in R1, R2, R4. destruct R4 as (_ & _ & R4).
    destruct h as [|y h]; cbn [opened inner]; (split; [exact R1|]); (split; [exact R2|]).
    + unfold drop_panics. rewrite R4. cbn [orb]. unfold text_ground. destruct (last_opt (text d)) as [c|]; [|reflexivity].
      change LF with 10. destruct (c =? 10); [reflexivity|]. unfold ground_of. now destruct (is_basic_text_end c).
    + unfold drop_panics. cbn [wst open_state]. destruct h; reflexivity.
Qed.

(** * What a closed writer has sent *)
Lemma fop_added : forall cr o d x b d', spec_fop cr o d x = (b, d') -> fop_ok o x -> failed d' = false ->
  failed d = false /\ text d' = text d ++ fop_shown o x /\ sent d' = sent d ++ as_sent cr (fop_shown o x) /\ (is_write (fop_op x) = true -> b = true) /\ Forall allowed (concat (fop_pieces x)).
Proof.
  assert (SD : forall cr d t b d', spec_send cr d t = (b, d') -> failed d' = false -> text d' = text d ++ t /\ sent d' = sent d ++ as_sent cr t /\ b = true).
  { intros cr d t b d' H F. unfold spec_send in H. destruct (_ && _); [injection H as <- <-; discriminate|].
    destruct (outcomes d) as [|[|n] o]; injection H as <- <-; try discriminate; auto. }
  assert (NL : forall cr (x : list N), x = x ++ as_sent cr []) by (intros [|] x; cbn; now rewrite app_nil_r).
  intros cr o d x b d' H HO F.
  assert (CA : forall c, spec_cop cr d c = (b, d') -> cop_ok c -> cop_shown c = fop_shown o x -> cop_pieces c = fop_pieces x -> cop_op c = fop_op x ->
    failed d = false /\ text d' = text d ++ fop_shown o x /\ sent d' = sent d ++ as_sent cr (fop_shown o x) /\ (is_write (fop_op x) = true -> b = true) /\ Forall allowed (concat (fop_pieces x))).
  { intros c E C <- <- <-. now apply cop_added. }
  destruct x as [f p h|f|s| | |]; cbn [spec_fop fop_ok] in H, HO.
  - destruct (failed d) eqn:EF; [injection H as <- <-; congruence|]. destruct (forallb allowedb (concat (pieces p)) && fits f p) eqn:EA; cbn [negb] in H; [|injection H as <- <-; discriminate].
    destruct (SD _ _ _ _ _ H F) as (A & B & C). repeat (split; [auto|]). apply andb_prop in EA. destruct EA as [EA _]. apply all_allowed in EA. clear - EA. cbn [fop_pieces]. apply Forall_forall. intros c K. apply in_concat in K. destruct K as (y & Y1 & Y2).
    apply in_map_iff in Y1. destruct Y1 as (x & <- & X). assert (AX : all_clean x) by (apply Forall_forall; intros z Z; rewrite Forall_forall in EA; apply EA, in_concat; eauto).
    apply all_allowed, allowed_pipeline in AX. rewrite Forall_forall in AX. auto.
  - destruct (failed d) eqn:EF; [injection H as <- <-; congruence|]. destruct (SD _ _ _ _ _ H F) as (A & B & C). cbn [fop_shown fop_pieces]. repeat (split; [auto|]). constructor.
  - apply (CA (CText s)); auto.
  - destruct o; [apply (CA CFlush); auto; exact I|]. injection H as <- <-. cbn [fop_shown fop_pieces fop_op is_write]. rewrite app_nil_r, <- NL. repeat split; auto; try discriminate. constructor.
  - destruct o; [apply (CA CClose); auto; exact I|]. injection H as <- <-. discriminate.
  - injection H as <- <-. discriminate.
Qed.
Lemma fops_added : forall xs cr o d bs h d', spec_fops cr o d xs = (bs, (h, d')) -> fops_ok o xs -> failed d' = false ->
  failed d = false /\ text d' = text d ++ fops_shown o xs /\ sent d' = sent d ++ as_sent cr (fops_shown o xs) /\
  Forall2 (fun x b => is_write (fop_op x) = true -> b = true) xs bs /\ Forall allowed (concat (concat (map fop_pieces xs))).
Proof.
  induction xs as [|x xs IH]; intros cr o d bs h d' H HO F; cbn [spec_fops] in H.
  - injection H as <- <- <-. cbn. destruct cr; cbn; rewrite !app_nil_r; auto 10.
  - destruct (spec_fop cr o d x) as [b d1] eqn:E1. destruct (spec_fops cr (left_open o x) d1 xs) as [bs1 [h2 d2]] eqn:E2. injection H as <- <- <-. destruct HO as [O1 O2].
    destruct (IH _ _ _ _ _ _ E2 O2 F) as (F1 & T1 & S1 & W1 & A1). destruct (fop_added _ _ _ _ _ _ E1 O1 F1) as (F0 & T0 & S0 & W0 & A0).
    split; [exact F0|]. cbn [map concat fops_shown]. rewrite as_sent_app, concat_app. split; [now rewrite T1, T0, app_assoc|]. split; [now rewrite S1, S0, app_assoc|]. split; [now constructor|now apply Forall_app].
Qed.
Lemma fop_uncoloured : forall o x, fop_ok o x -> uncoloured (fop_shown o x) (concat (fop_pieces x)).
Proof.
  intros o [f p h|f|s| | |] H; cbn [fop_shown fop_pieces fop_ok] in *; try constructor.
  - destruct H as (HP & _ & [[-> ->]|(NF & NO & ps & HPS & E)]); [now apply shown_uncoloured|]. destruct f as [|c f]; [congruence|]. rewrite E. apply unc_sgr; [exact HPS|now apply shown_uncoloured].
  - cbn [concat]. rewrite app_nil_r. apply unc_text. now apply substr_no_esc.
Qed.
Lemma fops_uncoloured : forall xs o, fops_ok o xs -> uncoloured (fops_shown o xs) (concat (concat (map fop_pieces xs))).
Proof.
  induction xs as [|x xs IH]; intros o H; [constructor|]. destruct H as [H1 H2]. cbn [map concat fops_shown]. rewrite concat_app. apply unc_app; [now apply fop_uncoloured|now apply IH].
Qed.
Lemma Forall2_fok : forall (P : fop -> Prop) os rs, Forall2 (fun o b => P o -> b = true) os (map ok rs) -> Forall2 (fun o r => P o -> r = None) os rs.
Proof.
  intros P os rs. revert os. induction rs as [|r rs IH]; intros os H; inversion H as [|? ? ? ? HH HT]; subst; constructor; auto.
  intro K. specialize (HH K). destruct r; [discriminate|reflexivity].
Qed.
Theorem cut_closed : forall cr p o xs rs w w', do_ops (new_writer cr true (mksink p o false)) (map fop_op xs) = (rs, w) -> fops_ok [] xs -> close w = (None, w') ->
  let u := fops_shown [] xs in let v := concat (concat (map fop_pieces xs)) in
  emitted (inner w') = p ++ as_sent cr u /\ uncoloured u v /\ line_terminated u /\ Forall allowed v /\ Forall2 (fun x r => is_write (fop_op x) = true -> r = None) xs rs.
Proof.
  intros cr p o xs rs w w' H HP HC u v. destruct (fops_refine xs cr _ _ _ (new_orefines cr p o) HP) as [RS R]. rewrite H in RS, R. cbn [fst snd] in RS, R.
  destruct (spec_fops cr [] (new_doc p o) xs) as [bs [h d]] eqn:ED. cbn [fst snd] in *.
  destruct (fop_refines cr h d w FClose R I) as [RC R']. cbn [fop_op do_op spec_fop left_open] in RC, R'. rewrite HC in RC, R'. cbn [fst snd ok] in RC, R'.
  destruct h as [|y h]; [|discriminate]. unfold spec_close in RC, R'. destruct (failed d) eqn:EF; [discriminate|].
  assert (LT : line_terminated (text d)).
  { destruct (last_opt (text d)) as [c|] eqn:EL; [|left; now apply last_opt_none]. destruct (c =? 10) eqn:E10; [|discriminate].
    right. apply last_opt_some in EL. apply N.eqb_eq in E10. subst c. exact EL. }
  assert (SE : sent (snd (spec_call d)) = sent d /\ failed (snd (spec_call d)) = failed d) by (unfold spec_call; destruct (outcomes d) as [|[|n] oo]; split; reflexivity). destruct SE as [SE SF].
  assert (EM : emitted (inner w') = sent d).
  { assert (K : orefines cr [] (snd (spec_call d)) w') by (destruct (last_opt (text d)) as [c|]; [destruct (c =? 10); [|discriminate]|]; exact R').
    unfold orefines in K. rewrite SF, EF in K. destruct K as (_ & w0 & -> & _ & _ & _ & _ & K & _). cbn in K. cbn [opened]. now rewrite K. }
  destruct (fops_added _ _ _ _ _ _ _ ED HP EF) as (_ & TX & SX & W & A). cbn in TX, SX. fold u in TX, SX. fold v in A.
  split; [congruence|]. split; [now apply fops_uncoloured|]. split; [now rewrite <- TX|]. split; [exact A|]. apply Forall2_fok. now rewrite RS.
Qed.
Lemma fop_pieces_nfc : forall o x, fop_ok o x -> Forall nfc_ss (fop_pieces x).
Proof.
  intros o [f p h|f|s| | |] H; cbn [fop_pieces]; [exact (cop_pieces_nfc (CWrite p) (proj1 H))|constructor|exact (cop_pieces_nfc (CText s) H)|constructor|constructor|constructor].
Qed.
Lemma fops_pieces_nfc : forall xs o, fops_ok o xs -> Forall nfc_ss (concat (map fop_pieces xs)).
Proof.
  induction xs as [|x xs IH]; intros o H; [constructor|]. destruct H as [H1 H2]. cbn [map concat]. apply Forall_app. split; [exact (fop_pieces_nfc o x H1)|exact (IH _ H2)].
Qed.
Theorem cut_valid : forall cr p o xs rs w w', do_ops (new_writer cr true (mksink p o false)) (map fop_op xs) = (rs, w) -> fops_ok [] xs -> close w = (None, w') ->
  Forall starts_ok (concat (map fop_pieces xs)) ->
  string_ok (concat (concat (map fop_pieces xs))) <-> forall l a b r, filter nonempty (concat (map fop_pieces xs)) = l ++ a :: b :: r -> ~ joined a b.
Proof.
  intros cr p o xs rs w w' H HP HC HS. destruct (cut_closed _ _ _ _ _ _ _ H HP HC) as (_ & U & L & A & _). pose proof (unc_lines _ _ U L) as LT. rewrite <- concat_nonempty in LT, A |- *.
  set (ts := filter nonempty _) in *. assert (TS : Forall (fun b => b <> [] /\ starts_ok b) ts).
  { apply Forall_forall. intros t K. apply filter_In in K. destruct K as [K1 K2]. rewrite Forall_forall in HS. split; [intros ->; discriminate K2|exact (HS _ K1)]. }
  assert (TN : Forall nfc_ss ts).
  { apply Forall_forall. intros t K. apply filter_In in K. destruct K as [K _]. pose proof (fops_pieces_nfc _ _ HP) as G. rewrite Forall_forall in G. auto. }
  rewrite <- (chain_nfc_ss ts); [|destruct TS; [constructor|assumption]|exact TN].
  assert (EN : ends_ok (concat ts)). { intros u c EU. destruct LT as [E|[v E]]; rewrite E in EU; [destruct u; discriminate|]. apply app_inj_tail in EU. destruct EU as [_ <-]. exact end_LF. }
  assert (ST : starts_ok (concat ts)) by now apply concat_starts.
  unfold string_ok, substring_ok, nfc_ss. rewrite stream_safe_spec. unfold nfc_text. tauto.
Qed.
Theorem cut_read_back : forall (bom cr : bool) nel lsps xs rs w w' sc sizes out j rest,
  do_ops (new_writer cr true (mksink (if bom then [BOM] else []) [] false)) (map fop_op xs) = (rs, w) -> fops_ok [] xs -> close w = (None, w') ->
  let v := concat (concat (map fop_pieces xs)) in string_ok v -> Forall (fun c => is_assigned c = true) v ->
  stream_text sc = emitted (inner w') -> no_push sc -> bom_visible sc -> reads (new_input nel lsps) sc sizes = (out, j, rest) -> reached_end out -> delivered out = v.
Proof.
  intros bom cr nel lsps xs rs w w' sc sizes out j rest H HO HC v OK A E NP BV R EN. destruct (cut_closed _ _ _ _ _ _ _ H HO HC) as (EM & U & L & _).
  apply (colour_read_back bom cr nel lsps _ v sc sizes out j rest U L OK A); auto. rewrite E, EM. reflexivity.
Qed.
