(** Several writers with colours over one stream, with calls that are cut off. *)
From Coq Require Import NArith Arith List Bool Lia ZifyBool ZifyNat ZifyN.
From Verif Require Import Base Ucd UcdTables Norm Chars TextTables TextUtils UcdFacts NormFacts CharFacts DocTable SpecText TextFacts PipelineFacts DocFacts IsoFacts
  Utf8 Utf8Facts SpecUtf8 Utf8Lossy Input Output ReadFacts ReadInv ReadSession SpecRead ReadChunk SpecEscape EscapeFacts EscapeRun ReadProps KeepFacts ReadPieces SpecConv ConvFacts DocProps LossyProps StringProps
  SpecWrite WriteFacts WriteProps SpecMore CanonProps SpecColour ColourProps SpecCat CatProps SpecCrash CrashProps SpecDamage DamageProps CrashColour DamageColour SeekProps SeekColour AppendColour Shared SpecShared SharedProps SharedCut SpecSharedColour SharedColour.
Import ListNotations.
Local Open Scope N_scope.
Arguments N.add : simpl never.
Arguments N.leb : simpl never.
Arguments N.ltb : simpl never.
Arguments N.eqb : simpl never.
Local Opaque pipeline.

Definition txt (o : cop) : list N := concat (cop_pieces o).
Lemma coloured_pieces : forall h cr s ds rs s', cagrees cr s ds -> Forall (fun x => cop_ok (snd x)) h -> shared_ops s (calls h) = (rs, s') -> exists ps, cwent cr h rs ps /\ accepted s' = accepted s ++ concat ps.
Proof.
  induction h as [|[k o] h IH]; intros cr s ds rs s' A HP H; cbn [calls map fst snd shared_ops] in H.
  - injection H as <- <-. exists []. cbn. rewrite app_nil_r. split; [exact (cwent_nil cr)|reflexivity].
  - destruct (shared_op s k (cop_op o)) as [r s1] eqn:E1. fold (calls h) in H. destruct (shared_ops s1 (calls h)) as [rs1 s2] eqn:E2. injection H as <- <-.
    destruct (coloured_step cr s ds k o r s1 A (Forall_inv HP) E1) as (ds1 & A1 & (a & SA & BA & OK & _)). destruct (cagrees_sent cr s ds k A) as [S0 _], (cagrees_sent cr s1 ds1 k A1) as [S1 _].
    rewrite S0, S1 in SA. destruct (IH cr s1 ds1 rs1 s2 A1 (Forall_inv_tail HP) E2) as (ps & W & AC). exists (a :: ps). split.
    + destruct r as [e|]; [now apply cwent_failed|]. rewrite (OK eq_refl). now apply cwent_ok.
    + rewrite AC, SA. cbn [concat]. now rewrite <- app_assoc.
Qed.

(** ** The state in a damaged line *)
Lemma calm_mild_from : forall nel lsps u v p q x, uncoloured u v -> u = p ++ q -> calm x -> mild (snd (trans nel lsps x p)).
Proof. intros nel lsps u v p q x U E C. exact (unc_mild nel lsps u v U p q x E C). Qed.
Lemma lf_calm : forall nel lsps x, mild x -> calm (snd (tstep nel lsps x 0xA)).
Proof. intros nel lsps x M. unfold calm. now rewrite mild_lf. Qed.
Lemma cr_calm : forall nel lsps x, mild x -> calm (snd (tstep nel lsps x 0xD)).
Proof. intros nel lsps x M. unfold calm. now rewrite mild_cr. Qed.
Lemma fresh_mild : forall cr nel lsps u v p x, uncoloured u v -> fresh_start u -> beginning p (as_sent cr u) -> mild x -> mild (snd (trans nel lsps x p)).
Proof.
  intros cr nel lsps u v p x U F [q B] M. destruct p as [|p0 p]; [exact M|]. pose proof (unc_sent cr u v U) as US. rewrite trans_end. destruct u as [|c u]; [destruct cr; discriminate|]. destruct F as [->| ->].
  - destruct cr.
    + change (as_sent true (0xA :: u)) with (0xD :: 0xA :: as_sent true u) in B. injection B as <- B. destruct (unc_from _ _ US [0xD] (p ++ q)) as [w W]; [now rewrite <- B|]. apply (calm_mild_from nel lsps _ w p q _ W eq_refl). now apply cr_calm.
    + injection B as <- B. destruct (unc_from _ _ US [0xA] (p ++ q)) as [w W]; [cbn [app]; now rewrite <- B|]. apply (calm_mild_from nel lsps _ w p q _ W eq_refl). now apply lf_calm.
  - assert (ES : as_sent cr (0x1B :: u) = 0x1B :: as_sent cr u) by (destruct cr; reflexivity). rewrite ES in *. injection B as <- B.
    pose proof (mild_esc nel lsps x M) as K. destruct (snd (tstep nel lsps x 0x1B)) as [e z]. cbn [snd] in K. subst z.
    assert (E1 : 0x1B :: as_sent cr u = (0x1B :: p) ++ q) by (cbn [app]; now rewrite B).
    pose proof (calm_mild_from nel lsps _ _ (0x1B :: p) q (e, Ground false) US E1 I) as R. rewrite trans_end in R. exact R.
Qed.
Lemma lines_shown : forall cr nel lsps u v, uncoloured u v -> all_clean v -> line_terminated u -> exists rs, replaced true (char_rep nel lsps) (as_sent cr u) rs /\ concat rs = v /\ (u = [] /\ rs = [] \/ last_opt rs = Some [0xA]).
Proof.
  intros cr nel lsps u v U CL LT. destruct (coloured_replaced cr nel lsps u v U CL) as (rs & R & E & L). exists rs. split; [exact R|]. split; [exact E|].
  specialize (L LT). unfold needs_newline, last_nl in L. destruct (last_opt rs) as [r|] eqn:LR.
  - right. unfold is_LF in L. destruct r as [|c [|c' r]]; try discriminate. apply negb_false_iff, N.eqb_eq in L. now subst c.
  - left. apply last_opt_none in LR. subst rs. split; [|reflexivity]. destruct LT as [|[w EW]]; [assumption|]. destruct (unc_last u v U w EW) as [z EZ]. cbn in E. rewrite <- E in EZ. destruct z; discriminate.
Qed.
(** The first line of a text with colours, and the rest. *)
Lemma unc_first_line : forall u v, uncoloured u v -> forall w, u = w ++ [0xA] -> exists f wf u2, u = f ++ 0xA :: u2 /\ uncoloured f wf /\ uncoloured u2 (after_first v) /\ line_terminated u2 /\ (exists g, v = g ++ 0xA :: after_first v) /\ (fresh_start u -> f = [] \/ exists f', f = 0x1B :: f').
Proof.
  intros u v U. induction U as [|c s t HC U IH|ps s t P U IH]; intros w E.
  - destruct w; discriminate.
  - destruct (N.eqb_spec c 0xA) as [->|NE].
    + exists [], [], s. cbn [after_first app]. rewrite N.eqb_refl. split; [reflexivity|]. split; [exact unc_nil|]. split; [exact U|]. split; [|split; [now exists []|now left]].
      destruct w as [|w0 w]; [injection E as ->; now left|]. injection E as _ ->. right. now exists w.
    + destruct w as [|w0 w]; [injection E as -> _; congruence|]. injection E as <- E. destruct (IH w E) as (f & wf & u2 & E1 & F1 & U2 & L2 & (g & G) & _). exists (c :: f), (c :: wf), u2.
      cbn [after_first]. replace (c =? 0xA) with false by (symmetry; now apply N.eqb_neq). split; [cbn [app]; now rewrite E1|]. split; [now apply unc_char|]. split; [exact U2|]. split; [exact L2|]. split; [exists (c :: g); cbn [app]; now rewrite <- G|].
      cbn. intros [K|K]; congruence.
  - assert (LS : exists w', s = w' ++ [0xA]).
    { destruct s as [|y s] using rev_ind; [|clear IHs; rewrite app_assoc in E; apply app_inj_tail in E; destruct E as [_ ->]; now exists s]. exfalso. rewrite app_nil_r in E. unfold sgr in E. change (0x1B :: 0x5B :: ps ++ [0x6D]) with ((0x1B :: 0x5B :: ps) ++ [0x6D]) in E. apply app_inj_tail in E. destruct E as [_ E]. discriminate. }
    destruct LS as [w' EW]. destruct (IH w' EW) as (f & wf & u2 & E1 & F1 & U2 & L2 & G & _). exists (sgr ps ++ f), wf, u2. split; [rewrite E1; now rewrite app_assoc|]. split; [now apply unc_sgr|]. split; [exact U2|]. split; [exact L2|]. split; [exact G|].
    intros _. right. now eexists.
Qed.

(** ** Before the conversion *)
Fixpoint craw (good : bool) (h : list (nat * cop)) (rs : list wresult) (o : list N) : Prop :=
  match h, rs with
  | (_, x) :: h', r :: rs' =>
      match cop_shown x, r with
      | [], _ => craw good h' rs' o
      | _, Some _ => craw false h' rs' o
      | _, None => if good then exists o', o = txt x ++ o' /\ craw true h' rs' o'
          else exists d o', o = d ++ 0xA :: after_first (txt x) ++ o' /\ craw true h' rs' o'
      end
  | _, _ => line_terminated o /\ (good = true -> o = [])
  end.
Definition good_lines (h : list (nat * cop)) : Prop := Forall (fun x => line_cop (snd x)) h.
Definition fresh_calls (h : list (nat * cop)) : Prop := Forall (fun x => fresh_start (cop_shown (snd x))) h.
Lemma line_parts : forall o, line_cop o -> cop_shown o <> [] -> exists w, cop_shown o = w ++ [0xA].
Proof. intros o (_ & [K|K] & _) N; [contradiction|exact K]. Qed.
Theorem coloured_raw : forall cr nel lsps h rs ps, cwent cr h rs ps -> good_lines h -> fresh_calls h -> forall good d, (good = true -> d = []) -> mild (snd (trans nel lsps (true, Ground false) d)) ->
  exists rr, replaced true (char_rep nel lsps) (d ++ concat ps) rr /\ forall e, tail_ok rr e -> craw good h rs (concat rr ++ e).
Proof.
  intros cr nel lsps h rs ps W. induction W as [|k o h rs ps W IH|k o e h rs p ps B W IH]; intros HL HF good d DG M.
  - cbn [concat] in *. rewrite app_nil_r. destruct (replaced_total nel lsps d) as [rr R]. exists rr. split; [exact R|]. intros e [T E]. cbn [craw]. split; [exact T|]. intro G. rewrite (DG G) in R. apply CatProps.replaced_nil_inv in R. subst rr. rewrite E by auto. reflexivity.
  - pose proof (Forall_inv HL) as L. pose proof (Forall_inv HF) as FS. cbn [snd] in L, FS. specialize (IH (Forall_inv_tail HL) (Forall_inv_tail HF)). cbn [concat craw].
    destruct (cop_shown o) as [|c0 u0] eqn:EO; [rewrite sent_nil; cbn [app]; exact (IH good d DG M)|]. rewrite <- EO in *. assert (NE : cop_shown o <> []) by (rewrite EO; discriminate). clear EO c0 u0.
    destruct (line_parts o L NE) as [w EW]. destruct L as (U & LT & (OK & LV & _)). fold (txt o) in *. pose proof (whole_clean _ OK) as CL.
    destruct (IH true [] (fun _ => eq_refl) I) as (rr & R & K). cbn [app] in R. destruct good.
    + rewrite (DG eq_refl). cbn [app]. destruct (lines_shown cr nel lsps _ _ U CL LT) as (ra & RA & EA & [[LA _]|LA]); [contradiction|]. exists (ra ++ rr). split.
      * apply replaced_app; [exact RA|rewrite EW; apply sent_ends|exact LA|exact R].
      * intros e T. exists (concat rr ++ e). rewrite concat_app, EA, <- app_assoc. split; [reflexivity|]. apply K. exact (tail_app _ _ _ LA T).
    + destruct (unc_first_line _ _ U w EW) as (f & wf & u2 & E1 & F1 & U2 & L2 & (g & G) & ST).
      assert (CL2 : all_clean (after_first (txt o))) by (rewrite G in CL; apply Forall_app in CL; destruct CL as [_ CL]; exact (Forall_inv_tail CL)).
      destruct (lines_shown cr nel lsps _ _ U2 CL2 L2) as (ra & RA & EA & LA). set (j := d ++ as_sent cr f ++ line_mark cr).
      assert (EJ : d ++ as_sent cr (cop_shown o) = (j ++ [0xA]) ++ as_sent cr u2).
      { rewrite E1. change (0xA :: u2) with ([0xA] ++ u2). unfold j. rewrite !as_sent_app, <- !app_assoc. do 2 f_equal. now destruct cr. }
      assert (EL : ends_line nel lsps (j ++ [0xA])) by (apply line_run; unfold j; rewrite <- app_assoc, run_after; exact (tail_end nel lsps cr f wf _ F1 (ST FS) M)).
      destruct EL as (x0 & rd & _ & RD & LD).
      assert (RJ : replaced true (char_rep nel lsps) ((j ++ [0xA]) ++ as_sent cr u2) (rd ++ ra)) by (apply replaced_app; [exact RD|now exists j|exact LD|exact RA]).
      assert (LJ : last_opt (rd ++ ra) = Some [0xA]) by (destruct LA as [[_ ->]|LA]; [now rewrite app_nil_r|now apply last_after]).
      exists ((rd ++ ra) ++ rr). split.
      * rewrite app_assoc, EJ. apply replaced_app; [exact RJ| |exact LJ|exact R].
        destruct L2 as [->|[v ->]]; [rewrite sent_nil, app_nil_r; now exists j|]. destruct (sent_ends cr v) as [x ->]. exists ((j ++ [0xA]) ++ x). now rewrite app_assoc.
      * intros e T. destruct (last_line rd LD) as [v EV]. exists v, (concat rr ++ e). rewrite !concat_app, EA, EV, <- !app_assoc. split; [reflexivity|]. apply K. exact (tail_app _ _ _ LJ T).
  - pose proof (Forall_inv HL) as L. pose proof (Forall_inv HF) as FS. cbn [snd] in L, FS. specialize (IH (Forall_inv_tail HL) (Forall_inv_tail HF)). cbn [concat craw]. rewrite app_assoc. destruct L as (U & _).
    assert (M2 : mild (snd (trans nel lsps (true, Ground false) (d ++ p)))) by (rewrite trans_app_end; exact (fresh_mild cr nel lsps _ _ p _ U FS B M)).
    destruct (cop_shown o) as [|c0 u0] eqn:EO.
    + apply IH; [|exact M2]. intro G. rewrite (DG G). rewrite sent_nil in B. destruct B as [z B]. symmetry in B. now apply app_eq_nil in B.
    + apply IH; [discriminate|exact M2].
Qed.

(** ** The text that is read *)
Lemma craw_guard : forall h rs o g, craw false h rs o -> line_terminated o -> (g = [] \/ o <> []) -> craw false h rs (g ++ o).
Proof.
  induction h as [|[k x] h IH]; intros rs o g R T G.
  - cbn [craw] in *. split; [|discriminate]. destruct T as [->|[u ->]]; [destruct G as [->|G]; [now left|congruence]|]. right. exists (g ++ u). now rewrite app_assoc.
  - destruct rs as [|r rs]; cbn [craw] in *.
    + split; [|discriminate]. destruct T as [->|[u ->]]; [destruct G as [->|G]; [now left|congruence]|]. right. exists (g ++ u). now rewrite app_assoc.
    + destruct (cop_shown x); [now apply IH|]. destruct r as [e|]; [now apply IH|]. destruct R as (d & o' & -> & R). exists (g ++ d), o'. now rewrite app_assoc.
Qed.
Lemma craw_start : forall h rs o g, craw true h rs o -> line_terminated o -> good_lines h -> length rs = length h ->
  (g = [] \/ o <> [] /\ (forall c u, o = c :: u -> is_basic_text_start c = false)) -> craw true h rs (g ++ o).
Proof.
  induction h as [|[k x] h IH]; intros rs o g R T HL LR G.
  - cbn [craw] in *. destruct R as [_ R]. rewrite (R eq_refl) in *. destruct G as [->|[G _]]; [now split|congruence].
  - destruct rs as [|r rs]; [discriminate|]. cbn [craw length] in *. pose proof (Forall_inv HL) as L. cbn [snd] in L. pose proof (line_parts x L) as LP. destruct (cop_shown x) as [|c0 u0] eqn:EO; [apply IH; auto; exact (Forall_inv_tail HL)|]. rewrite <- EO in *. destruct r as [e|]; [apply craw_guard; auto; tauto|].
    destruct R as (o' & -> & R). destruct G as [->|[_ G]]; [exists o'; now split|]. exfalso. destruct LP as [w EW]; [rewrite EO; discriminate|]. destruct L as (U & _ & ((_ & S & _) & _)). destruct (unc_last _ _ U w EW) as [z EZ]. fold (txt x) in EZ, S.
    destruct (txt x) as [|c v]; [destruct z; discriminate|]. cbn [app] in G. specialize (G c _ eq_refl). specialize (S c _ eq_refl). congruence.
Qed.
Theorem craw_reads : forall h rs good o, craw good h rs o -> good_lines h -> Forall (fun x => preceded (txt (snd x))) h -> creads_lines good h rs (pipeline o).
Proof.
  induction h as [|[k x] h IH]; intros rs good o R HL HA.
  - cbn [craw creads_lines] in *. destruct R as [T E]. split; [now apply FuzzProps.pipeline_line|]. intro G. rewrite (E G). exact pipeline_nil.
  - specialize (IH) with (2 := Forall_inv_tail HL) (3 := Forall_inv_tail HA). destruct rs as [|r rs]; cbn [craw creads_lines] in *.
    + destruct R as [T E]. split; [now apply FuzzProps.pipeline_line|]. intro G. rewrite (E G). exact pipeline_nil.
    + pose proof (Forall_inv HL) as L. pose proof (Forall_inv HA) as PR. cbn [snd] in L, PR. pose proof (line_parts x L) as LP. destruct (cop_shown x) as [|c0 u0] eqn:EO; [now apply IH|]. rewrite <- EO in *. destruct r as [e|]; [now apply IH|].
      destruct LP as [w EW]; [rewrite EO; discriminate|]. destruct L as (U & _ & (OK & _ & _)). destruct (unc_last _ _ U w EW) as [u EU]. cbv zeta. fold (txt x) in *. change [LF] with [0xA] in EU. pose proof (ok_pipeline _ OK PR) as PF.
      destruct good; [destruct R as (o' & -> & R)|destruct R as (d & o' & -> & R)].
      * exists (pipeline o'). split; [|now apply IH]. apply pipeline_lines; [right; now exists u|exact PF].
      * exists (pipeline d ++ [0xA]), (pipeline o'). split; [right; now exists (pipeline d)|]. split; [intro K; destruct (pipeline d); discriminate|]. split; [|now apply IH].
        change (d ++ 0xA :: ?z) with (d ++ LF :: z). rewrite pipeline_LF, <- app_assoc. f_equal. cbn [app]. f_equal. destruct (first_line u) as [f EF]. rewrite <- EU in EF. apply pipeline_lines; [rewrite EU; apply after_lines|].
        destruct OK as (SO & _). apply DebugProps.sub_ok_iff in SO. destruct SO as [NF AL]. apply (suffix_fixed f); rewrite <- EF; auto.
Qed.
Lemma unc_not_bom : forall u v, uncoloured u v -> all_clean v -> Forall (fun c => c <> 0xFEFF) u.
Proof.
  intros u v U. induction U as [|c s t HC U IH|ps s t P U IH]; intro A; [constructor| |].
  - constructor; [|exact (IH (Forall_inv_tail A))]. pose proof (Forall_inv A) as C. apply clean_special in C. destruct C as (_ & _ & _ & C). exact C.
  - apply Forall_app. split; [|exact (IH A)]. unfold sgr. apply Forall_cons; [discriminate|]. apply Forall_cons; [discriminate|]. apply Forall_app. split; [|apply Forall_cons; [discriminate|constructor]]. eapply Forall_impl; [|exact P]. intros c K. unfold parameter in K. lia.
Qed.
Lemma sent_not_bom : forall cr t, Forall (fun c => c <> 0xFEFF) t -> Forall (fun c => c <> 0xFEFF) (as_sent cr t).
Proof.
  intros cr t A. destruct cr; [|exact A]. induction A as [|c t AC A IH]; [constructor|].
  change (c :: t) with ([c] ++ t). rewrite as_sent_app. apply Forall_app. split; [|exact IH]. cbn. destruct (c =? 10); repeat (apply Forall_cons; [first [exact AC|discriminate]|]); constructor.
Qed.
Lemma cwent_all : forall (P : N -> Prop) cr h rs ps, cwent cr h rs ps -> Forall (fun x => Forall P (as_sent cr (cop_shown (snd x)))) h -> Forall P (concat ps).
Proof.
  intros P cr h rs ps W. induction W as [|k o h rs ps W IH|k o e h rs p ps [q B] W IH]; intro F; [constructor| |]; cbn [concat]; apply Forall_app; (split; [|apply IH; exact (Forall_inv_tail F)]); pose proof (Forall_inv F) as K; cbn [snd] in K; [exact K|]. rewrite B in K. now apply Forall_app in K.
Qed.
Lemma cwent_length : forall cr h rs ps, cwent cr h rs ps -> length rs = length h.
Proof. intros cr h rs ps W. induction W; cbn [length]; congruence. Qed.
Theorem coloured_parts : forall cr p a h rs s, shared_ops (new_coloured cr p a) (calls h) = (rs, s) -> Forall (fun x => cop_ok (snd x)) h -> exists ps, cwent cr h rs ps /\ accepted s = p ++ concat ps.
Proof. intros cr p a h rs s H HP. apply (coloured_pieces h cr (new_coloured cr p a) (fun _ => new_doc p a) rs s); auto. intro k. exact (new_crefines cr p a). Qed.
Section Read.
Variables (cr bom nel lsps : bool) (a : list wout) (h : list (nat * cop)) (rs : list wresult) (s : shared).
Hypothesis RUN : shared_ops (new_coloured cr (if bom then [0xFEFF] else []) a) (calls h) = (rs, s).
Hypothesis HP : Forall (fun x => cop_ok (snd x)) h.
Lemma coloured_went : exists ps, cwent cr h rs ps /\ accepted s = (if bom then [0xFEFF] else []) ++ concat ps.
Proof.
  exact (coloured_parts cr _ a h rs s RUN HP).
Qed.
Hypotheses (HL : good_lines h) (HF : fresh_calls h).
Lemma coloured_cut : exists ps rr, cwent cr h rs ps /\ without_bom (accepted s) = concat ps /\ replaced true (char_rep nel lsps) (concat ps) rr /\ craw true h rs (made rr).
Proof.
  destruct coloured_went as (ps & W & AC). exists ps. destruct (coloured_raw cr nel lsps h rs ps W HL HF true [] (fun _ => eq_refl) I) as (rr & R & K). cbn [app] in R. exists rr. split; [exact W|].
  assert (NB : Forall (fun c => c <> 0xFEFF) (concat ps)).
  { apply (cwent_all _ _ _ _ _ W). eapply Forall_impl; [|exact HL]. intros [k o] (U & _ & (OK & _)). cbn [snd] in *. apply sent_not_bom. exact (unc_not_bom _ _ U (whole_clean _ OK)). }
  split; [|split; [exact R|]].
  - rewrite AC. destruct bom; [reflexivity|]. apply without_bom_none. cbn [app]. intros t E. rewrite E in NB. now apply (Forall_inv NB).
  - destruct (made_shape rr) as (g & e & E & PG & T). rewrite E. pose proof (K e T) as RW. apply craw_start; auto; [exact (proj1 T)|exact (cwent_length _ _ _ _ W)|].
    destruct PG as [PG|[PG1 PG2]]; [now left|]. right. destruct (concat rr) as [|c t]; [congruence|]. split; [discriminate|]. intros c' u EC. injection EC as <- _. exact (PG2 c t eq_refl).
Qed.
Theorem coloured_cut_at_once : forall o, Forall (fun x => preceded (concat (cop_pieces (snd x)))) h -> gives nel lsps [Chunk (accepted s) End] o -> creads_lines true h rs o.
Proof.
  intros o PR G. destruct coloured_cut as (ps & rr & W & E & R & RW). rewrite <- E in R. rewrite (gives_once_made _ _ _ _ _ G R). now apply craw_reads.
Qed.
Theorem coloured_cut_read : forall sc o, Forall (fun x => Forall (fun c => is_assigned c = true) (concat (cop_pieces (snd x)))) h -> stream_text sc = accepted s -> regular sc -> gives nel lsps sc o -> creads_lines true h rs o.
Proof.
  intros sc o A ES RG G. destruct coloured_cut as (ps & rr & W & E & R & RW). pose proof R as R'. rewrite <- E, <- ES in R'. rewrite (gives_made _ _ _ _ _ G RG R').
  - apply craw_reads; auto. eapply Forall_impl; [|exact A]. intros x AX. now apply assigned_preceded.
  - apply (unguarded_assigned _ _ _ _ R). apply (cwent_all _ _ _ _ _ W). rewrite Forall_forall in *. intros x IN. destruct (proj1 (Forall_forall _ _) HL x IN) as (U & _). exact (sent_assigned false cr _ (unc_assigned _ _ U (A x IN))).
Qed.
End Read.
