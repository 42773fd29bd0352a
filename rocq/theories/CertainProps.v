(** Every stream, cut into reads in any way: exactly what is delivered. *)
From Coq Require Import NArith Arith List Bool Lia ZifyBool ZifyNat ZifyN.
From Verif Require Import Base Ucd UcdTables Norm Chars TextTables TextUtils UcdFacts NormFacts CharFacts DocTable SpecText TextFacts PipelineFacts DocFacts IsoFacts
  Utf8 Utf8Facts Input Output ReadFacts ReadInv ReadSession SpecRead ReadChunk SpecEscape EscapeFacts EscapeRun ReadProps KeepFacts ReadPieces SpecConv ConvFacts DocProps CatProps SpecPush PushProps
  SpecGap GapProps SpecCut CutProps SpecAsk SpecCertain CertainFacts.
Import ListNotations.
Local Open Scope N_scope.
Arguments N.add : simpl never.
Arguments N.leb : simpl never.
Arguments N.ltb : simpl never.
Arguments N.eqb : simpl never.
Local Opaque pipeline.

(** * The text translated for each read *)
Fixpoint louts (nel lsps : bool) (T : list N) (x : tstate) (evs : list (list N * status)) : list (list N) :=
  match evs with
  | [] => []
  | (raw, s) :: t =>
      let '(o, x1) := trans nel lsps x raw in
      let '(o2, x2) := fin s (last_opt (T ++ o)) x1 in
      (o ++ o2) :: louts nel lsps (T ++ o ++ o2) (if is_active s then fst x2 else true, snd x2) t
  end.
Lemma louts_concat : forall nel lsps evs T x, concat (louts nel lsps T x evs) = fst (tr nel lsps T x evs).
Proof.
  intros nel lsps. induction evs as [|[raw s] evs IH]; intros T x; [reflexivity|]. cbn [louts tr].
  destruct (trans nel lsps x raw) as [o x1]. destruct (fin s (last_opt (T ++ o)) x1) as [o2 x2]. cbn [concat]. rewrite IH.
  destruct (tr nel lsps (T ++ o ++ o2) (if is_active s then fst x2 else true, snd x2) evs) as [o3 x3]. cbn [fst]. now rewrite <- app_assoc.
Qed.
Lemma feed_louts : forall nel lsps evs T x, fst (feed nel lsps (mkabs (incomplete T) x false) evs) = piecewise (incomplete T) (louts nel lsps T x evs).
Proof.
  intros nel lsps. induction evs as [|[raw s] evs IH]; intros T x; [reflexivity|]. cbn [louts feed]. unfold absorb, pushed. cbn [a_res a_ts a_start body].
  destruct (trans nel lsps x raw) as [o x1]. rewrite fin_last2. destruct (fin s (last_opt (T ++ o)) x1) as [o2 x2].
  rewrite <- (proj2 (complete_app T (o ++ o2))). cbn [piecewise]. specialize (IH (T ++ o ++ o2) (if is_active s then fst x2 else true, snd x2)).
  rewrite (proj2 (complete_app T (o ++ o2))) in *.
  destruct (feed nel lsps _ evs) as [n a]. cbn [fst] in *. now rewrite IH.
Qed.
(** all that is translated after the first reads, after the first two, ... *)
Fixpoint sums (T : list N) (outs : list (list N)) : list (list N) :=
  match outs with
  | [] => []
  | o :: t => (T ++ o) :: sums (T ++ o) t
  end.
Fixpoint prefs {A} (l : list A) : list (list A) :=
  match l with
  | [] | [_] => []
  | a :: t => [a] :: map (cons a) (prefs t)
  end.
Lemma louts_cons : forall nel lsps T x raw s evs, louts nel lsps T x ((raw, s) :: evs) =
  fst (tr nel lsps T x [(raw, s)]) :: louts nel lsps (T ++ fst (tr nel lsps T x [(raw, s)])) (snd (tr nel lsps T x [(raw, s)])) evs.
Proof.
  intros. cbn [louts tr]. destruct (trans nel lsps x raw) as [o x1]. destruct (fin s (last_opt (T ++ o)) x1) as [o2 x2]. cbn [fst snd]. now rewrite app_nil_r.
Qed.
Lemma tr_cons : forall nel lsps T x raw s evs, fst (tr nel lsps T x ((raw, s) :: evs)) =
  fst (tr nel lsps T x [(raw, s)]) ++ fst (tr nel lsps (T ++ fst (tr nel lsps T x [(raw, s)])) (snd (tr nel lsps T x [(raw, s)])) evs).
Proof.
  intros. cbn [tr]. destruct (trans nel lsps x raw) as [o x1]. destruct (fin s (last_opt (T ++ o)) x1) as [o2 x2]. cbn [fst snd]. rewrite app_nil_r.
  destruct (tr nel lsps (T ++ o ++ o2) (if is_active s then fst x2 else true, snd x2) evs) as [o3 x3]. cbn [fst]. now rewrite <- app_assoc.
Qed.
Lemma sums_louts : forall nel lsps evs T x, evs <> [] ->
  sums T (louts nel lsps T x evs) = map (fun q => T ++ fst (tr nel lsps T x q)) (prefs evs) ++ [T ++ fst (tr nel lsps T x evs)].
Proof.
  intros nel lsps. induction evs as [|[raw s] evs IH]; intros T x NE; [congruence|]. destruct evs as [|e evs]; [now rewrite louts_cons|].
  rewrite louts_cons. change (prefs ((raw, s) :: e :: evs)) with ([(raw, s)] :: map (cons (raw, s)) (prefs (e :: evs))). cbn [map app].
  rewrite map_map. change (sums T (?a :: ?b)) with ((T ++ a) :: sums (T ++ a) b). rewrite IH by discriminate. f_equal. f_equal.
  - apply map_ext. intro q. now rewrite (tr_cons _ _ _ _ _ _ q), app_assoc.
  - now rewrite (tr_cons _ _ _ _ _ _ (e :: evs)), app_assoc.
Qed.

(** * Step by step *)
Lemma whole_part_eq : forall T, whole_part T = complete T.
Proof.
  induction T as [|c T IH]; [reflexivity|]. cbn [whole_part]. rewrite IH. pose proof (complete_app [c] T) as [E _]. cbn [app] in E. rewrite E. clear E.
  unfold complete at 2, incomplete. cbn [last_boundary]. fold (is_boundary c).
  assert (B : (c =? 0xA) || (c =? 0x34F) = is_boundary c) by reflexivity. rewrite B.
  destruct (is_boundary c) eqn:EB; cbn [firstn skipn app].
  - destruct (complete T) eqn:EC; reflexivity.
  - pose proof (complete_app [c] T) as [E _]. unfold complete at 2, incomplete in E. cbn [last_boundary] in E. rewrite EB in E. cbn [app] in E.
    destruct (complete_cases T) as [[E1 NB]|(a & x & E1 & HB)].
    + rewrite E1. destruct (complete_cases (c :: T)) as [[E2 _]|(a & x & E2 & HB)]; [now rewrite E2|]. exfalso.
      assert (NB' : no_boundary (c :: T)) by (constructor; assumption). apply last_boundary_none in NB'. unfold complete in E2. rewrite NB' in E2. now destruct a.
    + rewrite E1. unfold complete in *. cbn [last_boundary]. destruct (last_boundary T) as [n|] eqn:EL; [|now destruct a]. cbn [firstn]. rewrite E1. destruct (a ++ [x]) eqn:EA; [now destruct a|reflexivity].
Qed.
Lemma steps_sums : forall outs T, step_by_step (complete T) (sums T outs) = piecewise (incomplete T) outs.
Proof.
  induction outs as [|o outs IH]; intro T; [reflexivity|]. cbn [sums step_by_step piecewise]. rewrite whole_part_eq, IH, (proj2 (complete_app T o)), (proj1 (complete_app T o)), <- coded_pipeline.
  do 2 f_equal. rewrite skipn_app, skipn_all, Nat.sub_diag. reflexivity.
Qed.

(** * Beginnings of a script *)
Fixpoint evs_open (x : list event) : list (list N * status) :=
  match x with
  | [] => []
  | Chunk cs s :: t => (cs, s) :: evs_open t
  | Fail :: t => evs_open t
  end.
Lemma evs_open_app : forall x y, evs_open (x ++ y) = evs_open x ++ evs_open y.
Proof. induction x as [|[cs s|] x IH]; intro y; [reflexivity| |apply IH]. cbn. now rewrite IH. Qed.
Lemma cuts_prefs : forall script pre, map evs_open (cuts pre script) = map (fun q => evs_open pre ++ q) (prefs (evs_of script)).
Proof.
  induction script as [|[cs s|] t IH]; intro pre; [reflexivity| |apply IH].
  assert (E : forall s, map evs_open ((pre ++ [Chunk cs s]) :: cuts (pre ++ [Chunk cs s]) t) = map (fun q => evs_open pre ++ q) (prefs ((cs, s) :: evs_of t))).
  { intro s0. pose proof (evs_nonnil t) as NN. destruct (evs_of t) as [|e r] eqn:ET; [congruence|].
    change (prefs ((cs, s0) :: e :: r)) with ([(cs, s0)] :: map (cons (cs, s0)) (prefs (e :: r))). cbn [map]. rewrite IH, map_map, evs_open_app. cbn [evs_open]. f_equal.
    apply map_ext. intro q. now rewrite <- app_assoc. }
  destruct s; cbn [cuts evs_of]; [apply E|apply E|reflexivity].
Qed.
Lemma cuts_head : forall t e e' pre, map (fun x => match x with _ :: r => e' :: r | [] => [] end) (cuts (e :: pre) t) = cuts (e' :: pre) t.
Proof.
  induction t as [|[cs s|] t IH]; intros e e' pre; [reflexivity| |apply IH]. destruct s; cbn [cuts map app]; try reflexivity; f_equal; apply (IH e e').
Qed.
Lemma cuts_shape : forall t e pre x, In x (cuts (e :: pre) t) -> exists r, x = e :: r.
Proof.
  induction t as [|[cs s|] t IH]; intros e pre x H; [destruct H| |eapply IH; eauto]. destruct s; cbn [cuts] in H; try now destruct H.
  - destruct H as [<- |H]; [cbn; eauto|]. cbn [app] in H. eapply IH; eauto.
  - destruct H as [<- |H]; [cbn; eauto|]. cbn [app] in H. eapply IH; eauto.
Qed.
Lemma cuts_strip : forall script, cuts [] (strip script) = map strip (cuts [] script).
Proof.
  induction script as [|[cs s|] t IH]; [reflexivity| |exact IH]. cbn [strip]. 
  assert (E : forall s, cuts [Chunk (body true cs) s] t = map strip (cuts [Chunk cs s] t)).
  { intro s0. rewrite <- (cuts_head t (Chunk cs s0) (Chunk (body true cs) s0) []). apply map_ext_in. intros x H. destruct (cuts_shape _ _ _ _ H) as [r ->]. reflexivity. }
  destruct s; cbn [cuts map app strip]; try reflexivity; f_equal; apply E.
Qed.
Lemma cuts_open : forall t pre x, still_open pre -> In x (cuts pre t) -> still_open x /\ exists r, stream_text (pre ++ t) = stream_text x ++ r.
Proof.
  assert (TX : forall pre r, still_open pre -> stream_text (pre ++ r) = stream_text pre ++ stream_text r).
  { induction pre as [|[cs s|] pre IH]; intros r H; [reflexivity| |].
    - assert (H' : still_open pre) by (intros c K; apply (H c); now right). destruct s; cbn [app stream_text]; rewrite ?IH by exact H'; rewrite <- ?app_assoc; try reflexivity. exfalso. apply (H cs). now left.
    - apply IH. intros c K. apply (H c). now right. }
  assert (OS : forall pre cs s, still_open pre -> s <> End -> still_open (pre ++ [Chunk cs s])).
  { intros pre cs s O NS c K. apply in_app_or in K as [K|[K|[]]]; [exact (O c K)|]. injection K as _ K. congruence. }
  induction t as [|[cs s|] t IH]; intros pre x O H; [destruct H| |].
  - assert (GO : s <> End -> In x ((pre ++ [Chunk cs s]) :: cuts (pre ++ [Chunk cs s]) t) -> still_open x /\ exists r, stream_text (pre ++ Chunk cs s :: t) = stream_text x ++ r).
    { intros NS K. pose proof (OS _ cs s O NS) as O'. replace (pre ++ Chunk cs s :: t) with ((pre ++ [Chunk cs s]) ++ t) by now rewrite <- app_assoc.
      destruct K as [<- |K]; [split; [exact O'|]; eexists; now apply TX|]. exact (IH _ _ O' K). }
    destruct s; cbn [cuts] in H; [apply GO; [discriminate|exact H]|apply GO; [discriminate|exact H]|destruct H].
  - cbn [cuts] in H. destruct (IH _ _ O H) as (O' & r & E). split; [exact O'|]. exists r. rewrite <- E, !TX by exact O. reflexivity.
Qed.
Lemma cuts_bom : forall script x, bom_visible script -> In x (cuts [] script) -> bom_visible x.
Proof.
  intros script x [H|(c & cs & s & t & ->)] K.
  - left. intros t E. destruct (cuts_open script [] x ltac:(intros ? []) K) as (_ & r & ER). cbn [app] in ER. rewrite E in ER. cbn in ER. eapply H; eauto.
  - right. assert (exists r, x = Chunk (c :: cs) s :: r) as [r ->]; [|eauto 6]. destruct s; cbn [cuts app] in K; [destruct K as [<- |K]; [eauto|eapply cuts_shape; eauto]..|destruct K].
Qed.

(** * What is known *)
Fixpoint seg_open (segs : list (list N)) : list (list N * status) :=
  match segs with
  | [] => []
  | [s] => [(s, Active)]
  | s :: t => (s, Push) :: seg_open t
  end.
Lemma tr_seg_open : forall nel lsps x T y, still_open x -> tr nel lsps T y (evs_open x) = tr nel lsps T y (seg_open (segments x)).
Proof.
  intros nel lsps. induction x as [|[cs s|] t IH]; intros T y O.
  - cbn. now destruct y.
  - assert (O' : still_open t) by (intros c K; apply (O c); now right).
    assert (E : tr nel lsps T y ((cs, s) :: evs_open t) = tr nel lsps T y ((cs, s) :: seg_open (segments t))).
    { cbn [tr]. destruct (trans nel lsps y cs) as [o x1]. destruct (fin s (last_opt (T ++ o)) x1) as [o2 x2]. now rewrite IH. }
    cbn [evs_open]. rewrite E. pose proof (segments_nonnil t) as NN. destruct s; cbn [segments]; [| |exfalso; apply (O cs); now left];
      destruct (segments t) as [|s0 [|s1 r]]; try congruence; try reflexivity; apply tr_active.
  - apply IH. intros c K. apply (O c). now right.
Qed.
Lemma tr_known : forall nel lsps segs T b, segs <> [] -> ends_ok T -> exists rss rs, Forall2 (replaced true (char_rep nel lsps)) (removelast segs) rss /\
  certain true (char_rep nel lsps) (last segs []) rs /\ fst (tr nel lsps T (true, Ground b) (seg_open segs)) = concat (map guarded rss) ++ guard_start (concat rs).
Proof.
  intros nel lsps. induction segs as [|s segs IH]; intros T b NE ET; [congruence|]. destruct segs as [|s2 segs].
  - destruct (trans_certain nel lsps s) as (rs & C & E). exists [], rs. split; [constructor|]. split; [exact C|]. cbn [seg_open tr].
    specialize (E true b). destruct (trans nel lsps (true, Ground b) s) as [o x]. cbn [fin is_active fst] in *. cbn [map concat app]. rewrite !app_nil_r. exact E.
  - destruct (replaced_total nel lsps s) as [rs0 R0]. destruct (IH (T ++ guarded rs0) (last_nl b rs0) ltac:(discriminate)) as (rss & rs & F & C & E).
    { apply ends_ok_app; [exact ET|apply guard_end_ends]. }
    exists (rs0 :: rss), rs. split; [change (removelast (s :: s2 :: segs)) with (s :: removelast (s2 :: segs)); now constructor|]. split; [exact C|].
    change (seg_open (s :: s2 :: segs)) with ((s, Push) :: seg_open (s2 :: segs)). rewrite (tr_push _ _ _ _ _ rs0) by assumption.
    destruct (tr nel lsps (T ++ guarded rs0) (true, Ground (last_nl b rs0)) (seg_open (s2 :: segs))) as [o x]. cbn [fst] in *. rewrite E. cbn [map concat]. now rewrite app_assoc.
Qed.
Lemma ends_ok_nil : ends_ok [].
Proof. intros t c K. now destruct t. Qed.
Lemma known_tr : forall nel lsps x, bom_visible x -> still_open x -> known nel lsps x (fst (tr nel lsps [] (true, Ground true) (evs_open (strip x)))).
Proof.
  intros nel lsps x BV O. assert (O' : still_open (strip x)).
  { clear BV. induction x as [|[cs s|] t IH]; [exact O| |].
    - intros c [K|K]; [|apply (O c); now right]. injection K as _ ->. apply (O cs). now left.
    - intros c [K|K]; [discriminate|]. apply (IH (fun c K => O c (or_intror K)) c K). }
  rewrite tr_seg_open by exact O'. destruct (tr_known nel lsps (segments (strip x)) [] true (segments_nonnil _) ends_ok_nil) as (rss & rs & F & C & E).
  rewrite segments_strip in * by exact BV. exists rss, rs. auto.
Qed.
Lemma known_det : forall nel lsps x T T', known nel lsps x T -> known nel lsps x T' -> T = T'.
Proof.
  intros nel lsps x T T' (rss & rs & F & C & ->) (rss' & rs' & F' & C' & ->). rewrite (certain_det _ _ _ _ C _ C').
  f_equal. f_equal. f_equal. clear C C'. revert rss' F'. induction F as [|s r segs rss HR F IH]; intros rss' F'; inversion F' as [|? r' ? rss2 HR' F2]; subst; [reflexivity|].
  rewrite (replaced_det _ _ _ _ HR _ HR'), (IH _ F2). reflexivity.
Qed.
Theorem known_total : forall nel lsps x, exists T, known nel lsps x T.
Proof.
  intros nel lsps x. destruct (tr_known nel lsps (segments_read x) [] true (segments_read_nonnil _) ends_ok_nil) as (rss & rs & F & C & E). eexists. exists rss, rs. auto.
Qed.

(** * The whole *)
Lemma converted_louts : forall nel lsps script, converted_stream nel lsps script = piecewise [] (louts nel lsps [] (true, Ground true) (evs_of (strip script))).
Proof.
  intros nel lsps script. unfold converted_stream. rewrite feed_restart by apply evs_nonnil. rewrite evs_strip. exact (feed_louts nel lsps (evs_of (strip script)) [] (true, Ground true)).
Qed.
Lemma known_sums : forall nel lsps script Ts, bom_visible script -> Forall2 (known nel lsps) (cuts [] script) Ts ->
  Ts = map (fun q => fst (tr nel lsps [] (true, Ground true) q)) (prefs (evs_of (strip script))).
Proof.
  intros nel lsps script Ts BV F. pose proof (cuts_prefs (strip script) []) as CP. rewrite cuts_strip, map_map in CP. cbn [evs_open app] in CP. rewrite map_id in CP. rewrite <- CP, map_map. clear CP.
  assert (A : forall x, In x (cuts [] script) -> known nel lsps x (fst (tr nel lsps [] (true, Ground true) (evs_open (strip x))))).
  { intros x H. apply known_tr; [eapply cuts_bom; eauto|]. exact (proj1 (cuts_open script [] x ltac:(intros ? []) H)). }
  revert A. induction F as [|x T xs Ts K F IH]; intro A; [reflexivity|]. cbn [map]. rewrite IH by (intros y H; apply A; now right). f_equal. eapply known_det; [exact K|]. apply A. now left.
Qed.
Theorem converted_steps : forall nel lsps script rss Ts, bom_visible script -> Forall2 (replaced true (char_rep nel lsps)) (segments_read script) rss ->
  Forall2 (known nel lsps) (cuts [] script) Ts -> converted_stream nel lsps script = step_by_step [] (Ts ++ [pushed_text rss]).
Proof.
  intros nel lsps script rss Ts BV F K. rewrite converted_louts. pose proof (steps_sums (louts nel lsps [] (true, Ground true) (evs_of (strip script))) []) as S.
  change (complete []) with (@nil N) in S. change (incomplete []) with (@nil N) in S. rewrite <- S. rewrite sums_louts by apply evs_nonnil. cbn [app].
  rewrite <- (known_sums _ _ _ _ BV K). rewrite <- (segments_strip _ BV) in F. destruct (tr_pushed nel lsps _ rss (segments_nonnil _) F) as [E _]. rewrite <- tr_segments in E. now rewrite E.
Qed.
Lemma louts_app : forall nel lsps a b T x, exists T' x', louts nel lsps T x (a ++ b) = louts nel lsps T x a ++ louts nel lsps T' x' b.
Proof.
  intros nel lsps. induction a as [|[raw s] a IH]; intros b T x; [exists T, x; reflexivity|]. cbn [app louts]. destruct (trans nel lsps x raw) as [o x1]. destruct (fin s (last_opt (T ++ o)) x1) as [o2 x2].
  destruct (IH b (T ++ o ++ o2) (if is_active s then fst x2 else true, snd x2)) as (T' & x' & ->). exists T', x'. reflexivity.
Qed.
Lemma louts_length : forall nel lsps evs T x, length (louts nel lsps T x evs) = length evs.
Proof.
  intros nel lsps. induction evs as [|[raw s] evs IH]; intros T x; [reflexivity|]. cbn [louts]. destruct (trans nel lsps x raw) as [o x1]. destruct (fin s (last_opt (T ++ o)) x1) as [o2 x2]. cbn [length]. now rewrite IH.
Qed.
Lemma louts_split : forall nel lsps evs T x a b, louts nel lsps T x evs = a ++ b -> exists e f, evs = e ++ f /\ a = louts nel lsps T x e /\ length f = length b.
Proof.
  intros nel lsps evs T x a b E. exists (firstn (length a) evs), (skipn (length a) evs). split; [symmetry; apply firstn_skipn|].
  assert (L : length (louts nel lsps T x evs) = length evs) by apply louts_length. rewrite E, app_length in L.
  split; [|rewrite skipn_length; lia].
  destruct (louts_app nel lsps (firstn (length a) evs) (skipn (length a) evs) T x) as (T' & x' & K). rewrite firstn_skipn, E in K.
  apply app_prefix_len in K; [exact (proj1 K)|]. rewrite louts_length, firstn_length. lia.
Qed.
Lemma prefs_spec : forall A (l p : list A), In p (prefs l) <-> p <> [] /\ exists q, q <> [] /\ l = p ++ q.
Proof.
  intro A. induction l as [|a l IH]; intro p.
  - split; [intros []|]. intros (NP & q & _ & E). symmetry in E. apply app_eq_nil in E as [-> _]. congruence.
  - destruct l as [|a2 l].
    + split; [intros []|]. intros (NP & q & NQ & E). destruct p as [|x [|y p]]; [congruence| |discriminate]. injection E as _ E. congruence.
    + change (prefs (a :: a2 :: l)) with ([a] :: map (cons a) (prefs (a2 :: l))). cbn [In]. rewrite in_map_iff. split.
      * intros [<- |(p' & <- & H)].
        -- split; [discriminate|]. exists (a2 :: l). split; [discriminate|reflexivity].
        -- apply IH in H as (NP & q & NQ & ->). split; [discriminate|]. exists q. auto.
      * intros (NP & q & NQ & E). destruct p as [|x p]; [congruence|]. injection E as <- E. destruct p as [|y p]; [now left|right]. exists (y :: p). split; [reflexivity|]. apply IH. split; [discriminate|]. eauto.
Qed.
Theorem converted_cut_badly : forall nel lsps script rss, bom_visible script -> Forall2 (replaced true (char_rep nel lsps)) (segments_read script) rss ->
  let whole := coded_form (pushed_text rss) in let got := converted_stream nel lsps script in
  (cut_badly nel lsps script (pushed_text rss) /\ (length whole < length got)%nat) \/ (~ cut_badly nel lsps script (pushed_text rss) /\ got = whole).
Proof.
  intros nel lsps script rss BV F. cbv zeta. rewrite converted_louts, <- coded_pipeline. set (evs := evs_of (strip script)).
  pose proof F as F'. rewrite <- (segments_strip _ BV) in F'. destruct (tr_pushed nel lsps _ rss (segments_nonnil _) F') as [E C]. rewrite <- tr_segments in E. fold evs in E.
  assert (EC : concat (louts nel lsps [] (true, Ground true) evs) = pushed_text rss) by (rewrite louts_concat; exact E).
  pose proof (piecewise_cut (louts nel lsps [] (true, Ground true) evs) []) as PC. cbn [app] in PC. rewrite EC in PC. specialize (PC (complete_incomplete _ C)). cbv zeta in PC.
  change (incomplete []) with (@nil N) in PC. change (ends_cgj []) with false in PC. cbn [app] in PC. rewrite <- seam_pipeline in PC.
  assert (BC : cut_badly nel lsps script (pushed_text rss) <-> exists x y, louts nel lsps [] (true, Ground true) evs = x ++ y /\ cutb (concat x) (concat y) = true).
  { pose proof (cuts_prefs (strip script) []) as CP. rewrite cuts_strip, map_map in CP. cbn [evs_open app] in CP. rewrite map_id in CP. fold evs in CP. split.
    - intros (x & T & R & HX & K & ET & BC). assert (P : In (evs_open (strip x)) (prefs evs)) by (rewrite <- CP; apply in_map_iff; eauto).
      apply prefs_spec in P as (_ & q & _ & EQ). destruct (louts_app nel lsps (evs_open (strip x)) q [] (true, Ground true)) as (T' & x' & EL). rewrite <- EQ in EL.
      exists (louts nel lsps [] (true, Ground true) (evs_open (strip x))), (louts nel lsps T' x' q). split; [exact EL|].
      assert (KT : T = concat (louts nel lsps [] (true, Ground true) (evs_open (strip x)))).
      { rewrite louts_concat. eapply known_det; [exact K|]. apply known_tr; [eapply cuts_bom; eauto|]. exact (proj1 (cuts_open script [] x ltac:(intros ? []) HX)). }
      apply cutb_spec. rewrite <- KT. rewrite EL, concat_app, ET, <- KT in EC. apply app_inv_head in EC. rewrite EC. exact BC.
    - intros (a & b & EL & CB). destruct (louts_split _ _ _ _ _ _ _ EL) as (e & f & EE & -> & LF').
      assert (NE : e <> []). { intros ->. cbn in CB. discriminate. }
      assert (NF : f <> []).
      { intros ->. rewrite app_nil_r in EE. subst e. destruct b; [|discriminate]. rewrite EC in CB. unfold cutb in CB. rewrite (complete_incomplete _ C) in CB. cbn in CB. now rewrite andb_false_r in CB. }
      assert (P : In e (prefs evs)) by (apply prefs_spec; split; [exact NE|exists f; auto]). rewrite <- CP in P. apply in_map_iff in P as (x & <- & HX).
      exists x, (concat (louts nel lsps [] (true, Ground true) (evs_open (strip x)))), (concat b). split; [exact HX|]. split; [|split].
      + rewrite louts_concat. apply known_tr; [eapply cuts_bom; eauto|]. exact (proj1 (cuts_open script [] x ltac:(intros ? []) HX)).
      + now rewrite <- EC, EL, concat_app.
      + now apply cutb_spec. }
  destruct PC as [[CB L]|[CB EG]].
  - left. split; [now apply BC|exact L].
  - right. split; [|exact EG]. intro K. apply BC in K as (x & y & EL & K). rewrite (CB _ _ EL) in K. discriminate.
Qed.

(** * Sessions *)
Theorem session_steps : forall nel lsps script sizes out j rest rss Ts, reads (new_input nel lsps) script sizes = (out, j, rest) -> reached_end out -> bom_visible script ->
  Forall2 (replaced true (char_rep nel lsps)) (segments_read script) rss -> Forall2 (known nel lsps) (cuts [] script) Ts ->
  delivered out = step_by_step [] (Ts ++ [pushed_text rss]).
Proof. intros nel lsps script sizes out j rest rss Ts H E BV F K. destruct (session_end _ _ _ _ _ _ _ H E) as (-> & _). now apply converted_steps. Qed.
Theorem session_cut_badly : forall nel lsps script sizes out j rest rss, reads (new_input nel lsps) script sizes = (out, j, rest) -> reached_end out -> bom_visible script ->
  Forall2 (replaced true (char_rep nel lsps)) (segments_read script) rss ->
  (delivered out = coded_form (pushed_text rss) <-> ~ cut_badly nel lsps script (pushed_text rss)) /\
  (cut_badly nel lsps script (pushed_text rss) -> (length (coded_form (pushed_text rss)) < length (delivered out))%nat).
Proof.
  intros nel lsps script sizes out j rest rss H E BV F. destruct (session_end _ _ _ _ _ _ _ H E) as (-> & _).
  destruct (converted_cut_badly nel lsps script rss BV F) as [[CB L]|[CB EG]].
  - split; [|auto]. split; [intro K; rewrite K in L; lia|contradiction].
  - split; [now split|contradiction].
Qed.

(** * Streams without pushes *)
Lemma segments_no_push : forall script, no_push script -> segments script = [stream_text script].
Proof.
  induction script as [|[cs s|] t IH]; intro NP; [reflexivity| |].
  - assert (NP' : no_push t) by (intros c K; apply (NP c); now right). destruct s; cbn [segments stream_text]; [now rewrite IH| |reflexivity]. exfalso. apply (NP cs). now left.
  - cbn [segments stream_text]. apply IH. intros c K. apply (NP c). now right.
Qed.
Theorem no_push_cut_badly : forall nel lsps script sizes out j rest rs, reads (new_input nel lsps) script sizes = (out, j, rest) -> reached_end out -> no_push script -> bom_visible script ->
  replaced true (char_rep nel lsps) (without_bom (stream_text script)) rs ->
  let whole := guard_end (guard_start (concat rs)) ++ final_newline rs in
  (delivered out = coded_form whole <-> ~ cut_badly nel lsps script whole) /\
  (cut_badly nel lsps script whole -> (length (coded_form whole) < length (delivered out))%nat).
Proof.
  intros nel lsps script sizes out j rest rs H E NP BV R. pose proof (session_cut_badly nel lsps script sizes out j rest [rs] H E BV) as S.
  unfold segments_read in S. rewrite segments_no_push in S by exact NP. unfold pushed_text, guarded in S. cbn [map concat] in S. rewrite !app_nil_r in S. apply S. constructor; [exact R|constructor].
Qed.
Theorem chunks_exact : forall nel lsps script sizes out j rest sizes1 out1 j1 rest1 rs, no_push script -> bom_visible script ->
  reads (new_input nel lsps) script sizes = (out, j, rest) -> reached_end out ->
  reads (new_input nel lsps) [Chunk (stream_text script) End] sizes1 = (out1, j1, rest1) -> reached_end out1 ->
  replaced true (char_rep nel lsps) (without_bom (stream_text script)) rs ->
  let whole := guard_end (guard_start (concat rs)) ++ final_newline rs in
  (delivered out = delivered out1 <-> ~ cut_badly nel lsps script whole) /\
  (cut_badly nel lsps script whole -> (length (delivered out1) < length (delivered out))%nat).
Proof.
  intros nel lsps script sizes out j rest sizes1 out1 j1 rest1 rs NP BV H E H1 E1 R. cbv zeta.
  assert (D1 : delivered out1 = coded_form (guard_end (guard_start (concat rs)) ++ final_newline rs)).
  { apply (no_push_cut_badly nel lsps [Chunk (stream_text script) End] sizes1 out1 j1 rest1 rs H1 E1).
    - intros cs [K|[]]. discriminate.
    - destruct (stream_text script) as [|c cs] eqn:ET; [left; cbn; discriminate|right; eauto 6].
    - exact R.
    - intros (x & _ & _ & [] & _). }
  rewrite D1. exact (no_push_cut_badly nel lsps script sizes out j rest rs H E NP BV R).
Qed.
