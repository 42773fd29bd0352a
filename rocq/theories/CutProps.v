(** Exactly which cuts between reads change what is delivered. *)
From Coq Require Import NArith Arith List Bool Lia ZifyBool ZifyNat ZifyN.
From Verif Require Import Base Ucd UcdTables Norm Chars TextTables TextUtils UcdFacts NormFacts CharFacts DocTable SpecText TextFacts PipelineFacts DocFacts IsoFacts
  Utf8 Utf8Facts Input Output ReadFacts ReadInv ReadSession SpecRead ReadChunk SpecEscape EscapeFacts EscapeRun ReadProps KeepFacts ReadPieces SpecConv ConvFacts
  SpecWrite WriteFacts WriteProps Strings StringFacts ConcatFacts EdgeFacts SpecString StringProps ScalarFacts LossyProps JoinProps Fuzz FuzzProps SpecMore CanonProps SpecCut.
Import ListNotations.
Local Open Scope N_scope.
Arguments N.add : simpl never.
Arguments N.leb : simpl never.
Arguments N.ltb : simpl never.
Arguments N.eqb : simpl never.
Local Opaque pipeline.

(** * The conversion of text after [h] *)
Definition seam (h : bool) (s : list N) : list N := conv (isolate_go false h s).
Lemma seam_pipeline : forall s, pipeline s = seam false s.
Proof. reflexivity. Qed.
Lemma seam_nil : forall h, seam h [] = [].
Proof. intro h. apply conv_nil. Qed.
Lemma iso_need : forall s, isolate_go true false s = isolate_go false false s \/ isolate_go true false s = CGJ :: isolate_go false false s.
Proof.
  intros [|c s]; [now right|]. cbn [isolate_go]. destruct (c =? CGJ) eqn:E; cbn [negb andb orb].
  - apply N.eqb_eq in E. subst c. rewrite assigned_CGJ. now left.
  - destruct (is_assigned c); cbn [negb andb orb]; [now right|now left].
Qed.
(** cutting before an unassigned character after U+34F makes the text longer *)
Lemma seam_longer : forall c s, is_assigned c = false -> (length (seam true (c :: s)) < length (seam false (c :: s)))%nat.
Proof.
  intros c s H. assert (NC : (c =? CGJ) = false) by (apply N.eqb_neq; intros ->; now rewrite assigned_CGJ in H).
  unfold seam. cbn [isolate_go]. rewrite H, NC. cbn [negb andb orb].
  rewrite (conv_cons CGJ) by exact boring_CGJ. rewrite !(conv_cons c) by now apply unassigned_boring. cbn [length].
  destruct (iso_need s) as [-> | ->]; [lia|]. rewrite (conv_cons CGJ) by exact boring_CGJ. cbn [length]. lia.
Qed.
Lemma seam_same : forall h s, h = false \/ hd_assigned s -> seam h s = seam false s.
Proof. intros h s [-> |H]; [reflexivity|]. destruct h; [|reflexivity]. unfold seam. now rewrite iso_have. Qed.
Lemma seam_join : forall h a i b, boundary i -> seam h ((a ++ [i]) ++ b) = seam h (a ++ [i]) ++ seam (i =? CGJ) b.
Proof.
  intros h a i b H. unfold seam. rewrite <- app_assoc. cbn [app].
  rewrite iso_split by now apply boundary_assigned.
  destruct (iso_snoc a false h i (boundary_assigned _ H)) as [x ->].
  rewrite <- app_assoc. cbn [app]. rewrite conv_split, conv_snoc by now apply boundary_boring.
  rewrite <- app_assoc. reflexivity.
Qed.

(** * Converting piece by piece *)
Fixpoint piecewise (q : list N) (outs : list (list N)) : list N :=
  match outs with
  | [] => []
  | o :: t => pipeline (complete (q ++ o)) ++ piecewise (incomplete (q ++ o)) t
  end.
Definition ends_cgj (T : list N) : bool := match last_opt (complete T) with Some c => c =? CGJ | None => false end.
Definition first_unassigned (s : list N) : bool := match s with c :: _ => negb (is_assigned c) | [] => false end.
Definition cutb (T R : list N) : bool := ends_cgj T && first_unassigned (incomplete T ++ R).

Lemma ends_cgj_app : forall T o, ends_cgj (T ++ o) = match last_opt (complete (incomplete T ++ o)) with Some c => c =? CGJ | None => ends_cgj T end.
Proof.
  intros T o. unfold ends_cgj. rewrite (proj1 (complete_app T o)), ReadFacts.last_opt_app. destruct (last_opt (complete (incomplete T ++ o))); reflexivity.
Qed.
Lemma not_first : forall s, first_unassigned s = false -> hd_assigned s.
Proof. intros s H c t ->. cbn [first_unassigned] in H. now destruct (is_assigned c). Qed.
Lemma first_app : forall a b, a <> [] -> first_unassigned (a ++ b) = first_unassigned a.
Proof. intros [|c a] b H; [congruence|reflexivity]. Qed.

Lemma piecewise_cut : forall outs T, incomplete (T ++ concat outs) = [] ->
  let whole := seam (ends_cgj T) (incomplete T ++ concat outs) in
  let got := piecewise (incomplete T) outs in
  ((exists x y, outs = x ++ y /\ cutb (T ++ concat x) (concat y) = true) /\ (length whole < length got)%nat) \/
  ((forall x y, outs = x ++ y -> cutb (T ++ concat x) (concat y) = false) /\ got = whole).
Proof.
  induction outs as [|o outs IH]; intros T H; cbv zeta.
  - cbn [concat] in *. rewrite app_nil_r in *. right. rewrite H. cbn [piecewise]. rewrite seam_nil. split; [|reflexivity].
    intros x y E. symmetry in E. apply app_eq_nil in E. destruct E as [-> ->]. unfold cutb. cbn [concat]. rewrite !app_nil_r, H. apply andb_false_r.
  - cbn [concat piecewise] in *. rewrite app_assoc in H. specialize (IH (T ++ o) H). cbv zeta in IH.
    rewrite (proj2 (complete_app T o)) in IH. set (q := incomplete T ++ o) in *.
    assert (ER : incomplete T ++ o ++ concat outs = complete q ++ incomplete q ++ concat outs).
    { rewrite app_assoc. fold q. rewrite (blocks_split q) at 1. now rewrite <- app_assoc. }
    rewrite ER. rewrite ends_cgj_app in IH. fold q in IH.
    assert (LATER : (exists x y, outs = x ++ y /\ cutb ((T ++ o) ++ concat x) (concat y) = true) -> exists x y, o :: outs = x ++ y /\ cutb (T ++ concat x) (concat y) = true).
    { intros (x & y & -> & C). exists (o :: x), y. split; [reflexivity|]. cbn [concat]. now rewrite app_assoc. }
    assert (ALL : cutb T (o ++ concat outs) = false -> (forall x y, outs = x ++ y -> cutb ((T ++ o) ++ concat x) (concat y) = false) ->
      forall x y, o :: outs = x ++ y -> cutb (T ++ concat x) (concat y) = false).
    { intros C0 C x y E. destruct x as [|o' x].
      - cbn [app] in E. subst y. cbn [concat]. now rewrite app_nil_r.
      - injection E as <- E. cbn [concat]. rewrite app_assoc. now apply C. }
    assert (C0 : cutb T (o ++ concat outs) = ends_cgj T && first_unassigned (complete q ++ incomplete q ++ concat outs)) by (unfold cutb; now rewrite ER).
    destruct (complete_cases q) as [[EC NB]|(a & i & EC & HB)].
    + rewrite EC in *. cbn [app last_opt] in *. rewrite pipeline_nil. cbn [app].
      assert (SAME : cutb (T ++ o) (concat outs) = cutb T (o ++ concat outs)).
      { rewrite C0. unfold cutb. rewrite ends_cgj_app, (proj2 (complete_app T o)). fold q. rewrite EC. reflexivity. }
      destruct IH as [[C L]|[C E]]; [left; auto|right]. split; [|exact E]. apply ALL; [|exact C].
      rewrite <- SAME. specialize (C [] outs eq_refl). cbn [concat] in C. now rewrite app_nil_r in C.
    + rewrite EC in *. rewrite last_opt_snoc in IH. rewrite seam_join by exact HB. rewrite seam_pipeline, !app_length.
      rewrite first_app in C0 by (destruct a; discriminate).
      destruct (ends_cgj T) eqn:EH; [destruct (first_unassigned (a ++ [i])) eqn:EF|].
      * left. split; [exists [], (o :: outs); split; [reflexivity|]; cbn [concat]; now rewrite app_nil_r|].
        assert (L : (length (seam true (a ++ [i])) < length (seam false (a ++ [i])))%nat).
        { destruct (a ++ [i]) as [|c t]; [discriminate|]. apply seam_longer. cbn [first_unassigned] in EF. now destruct (is_assigned c). }
        destruct IH as [[_ L2]|[_ E]]; [lia|rewrite E; lia].
      * rewrite (seam_same true) by (right; now apply not_first). destruct IH as [[C L]|[C E]]; [left; split; [auto|lia]|right]. split; [now apply ALL|now rewrite E].
      * destruct IH as [[C L]|[C E]]; [left; split; [auto|lia]|right]. split; [now apply ALL|now rewrite E].
Qed.

(** * What the reader does with its events *)
(** the translated text of each inner read *)
Fixpoint outs (nel lsps : bool) (T : list N) (x : tstate) (evs : list (list N)) (raw : list N) : list (list N) :=
  match evs with
  | [] => let '(o, x') := trans nel lsps x raw in [o ++ fst (fin End (last_opt (T ++ o)) x')]
  | r :: t => let '(o, x') := trans nel lsps x r in o :: outs nel lsps (T ++ o) x' t raw
  end.
Lemma outs_concat : forall nel lsps evs raw T x, concat (outs nel lsps T x evs raw) =
  let '(o, x') := trans nel lsps x (concat evs ++ raw) in o ++ fst (fin End (last_opt (T ++ o)) x').
Proof.
  intros nel lsps evs raw. induction evs as [|r evs IH]; intros T x; cbn [outs concat app].
  - destruct (trans nel lsps x raw) as [o x']. cbn [concat]. apply app_nil_r.
  - rewrite <- app_assoc, trans_app. destruct (trans nel lsps x r) as [o x']. cbn [concat]. rewrite IH.
    destruct (trans nel lsps x' (concat evs ++ raw)) as [o2 x2]. now rewrite <- !app_assoc.
Qed.
Lemma feed_outs : forall nel lsps evs raw T x, tinv [] T x ->
  fst (feed nel lsps (mkabs (incomplete T) x false) (map (fun r => (r, Active)) evs ++ [(raw, End)])) = piecewise (incomplete T) (outs nel lsps T x evs raw) /\
  incomplete (T ++ concat (outs nel lsps T x evs raw)) = [].
Proof.
  intros nel lsps evs raw. induction evs as [|r evs IH]; intros T x I.
  - cbn [map app outs feed]. unfold absorb, pushed. cbn [a_res a_ts a_start body].
    destruct (trans nel lsps x raw) as [o x'] eqn:ET. rewrite fin_last2. pose proof (trans_inv _ _ _ _ _ _ _ _ I ET) as T1.
    destruct (fin End (last_opt (T ++ o)) x') as [o2 x2] eqn:EF. cbn [fst piecewise concat]. rewrite !app_nil_r. split; [reflexivity|].
    pose proof (fin_inv _ _ _ _ _ _ T1 EF) as T2. rewrite <- app_assoc in T2. pose proof (tinv_done _ _ T2 ltac:(eapply fin_end; eauto)) as CT.
    pose proof (blocks_split (T ++ o ++ o2)) as B. rewrite CT in B. rewrite <- (app_nil_r (T ++ o ++ o2)) in B at 1. now apply app_inv_head in B.
  - cbn [map app outs feed]. unfold absorb, pushed. cbn [a_res a_ts a_start body].
    destruct (trans nel lsps x r) as [o1 x1] eqn:E1. pose proof (trans_inv _ _ _ _ _ _ _ _ I E1) as T1.
    destruct (IH (T ++ o1) x1 T1) as [A B]. cbn [fin is_active]. rewrite app_nil_r. cbn [piecewise concat].
    rewrite app_assoc. rewrite (proj2 (complete_app T o1)) in A. replace (fst x1, snd x1) with x1 by now destruct x1.
    destruct (feed nel lsps (mkabs (incomplete (incomplete T ++ o1)) x1 false) (map (fun r => (r, Active)) evs ++ [(raw, End)])) as [n2 a2].
    cbn [fst] in *. now rewrite A.
Qed.

(** * Text that is not replaced *)
Lemma tstep_clean : forall b nl c, clean c = true -> (b = true -> is_basic_text_start c = true) ->
  tstep false false (b, Ground nl) c = ([c], (false, Ground (c =? LF))).
Proof.
  intros b nl c C S. destruct (clean_special _ C) as (N1 & N2 & N3 & _). unfold tstep, stub, step, step_ground. cbn.
  destruct (c =? LF) eqn:E; [apply N.eqb_eq in E; subst c; reflexivity|].
  destruct (N.eqb_spec c CR) as [K|_]; [now elim N1|]. destruct (N.eqb_spec c FF) as [K|_]; [now elim N2|]. destruct (N.eqb_spec c ESC) as [K|_]; [now elim N3|].
  unfold ground_char. cbn. rewrite (clean_replace _ C). cbn. destruct b; [|reflexivity]. now rewrite (S eq_refl).
Qed.
Lemma trans_clean : forall s b nl, all_clean s -> (b = true -> hstart s) -> exists b' nl', trans false false (b, Ground nl) s = (s, (b', Ground nl')) /\
  (s = [] -> b' = b /\ nl' = nl) /\ (s <> [] -> b' = false /\ nl' = match last_opt s with Some c => c =? LF | None => false end).
Proof.
  induction s as [|c s IH]; intros b nl C S; [exists b, nl; cbn [trans]; intuition congruence|].
  inversion C as [|? ? C1 C2]; subst. cbn [trans]. rewrite tstep_clean; [|exact C1|exact S].
  destruct (IH false (c =? LF) C2 ltac:(discriminate)) as (b' & nl' & -> & E1 & E2). exists b', nl'. split; [reflexivity|]. split; [discriminate|]. intros _.
  change (c :: s) with ([c] ++ s). rewrite ReadFacts.last_opt_app. destruct s as [|d s].
  - destruct (E1 eq_refl) as [-> ->]. split; reflexivity.
  - destruct (E2 ltac:(discriminate)) as [-> ->]. split; [reflexivity|]. destruct (last_opt (d :: s)) eqn:EL; [reflexivity|]. destruct s using rev_ind; [discriminate|]. change (d :: s ++ [x]) with ((d :: s) ++ [x]) in EL. rewrite last_opt_snoc in EL. discriminate.
Qed.
Lemma hstart_first : forall a b, hstart (a ++ b) -> a <> [] -> hstart a.
Proof. intros [|c a] b H N; [congruence|exact H]. Qed.
Lemma last_nonnil : forall (s : list N), s <> [] -> exists c, last_opt s = Some c.
Proof. intros s H. destruct s as [|c s _] using rev_ind; [congruence|]. exists c. apply last_opt_snoc. Qed.
Lemma outs_clean : forall evs raw T b nl, all_clean (concat evs ++ raw) -> (b = true -> hstart (concat evs ++ raw)) ->
  (T = [] -> nl = true) -> (forall c, last_opt T = Some c -> nl = (c =? LF)) -> ends_ok (T ++ concat evs ++ raw) ->
  outs false false T (b, Ground nl) evs raw = evs ++ [raw ++ line_end (T ++ concat evs ++ raw)].
Proof.
  induction evs as [|r evs IH]; intros raw T b nl C S N1 N2 HE; cbn [outs concat app] in *.
  - destruct (trans_clean raw b nl C S) as (b' & nl' & -> & E1 & E2). do 2 f_equal. apply ends_ok_iff in HE.
    assert (NL : nl' = match last_opt (T ++ raw) with Some c => c =? LF | None => true end).
    { rewrite ReadFacts.last_opt_app. destruct raw as [|c raw].
      - destruct (E1 eq_refl) as [_ ->]. cbn [last_opt]. destruct T as [|d T]; [now apply N1|]. destruct (last_nonnil (d :: T) ltac:(discriminate)) as [z EZ]. rewrite EZ. now apply N2.
      - destruct (E2 ltac:(discriminate)) as [_ ->]. destruct (last_nonnil (c :: raw) ltac:(discriminate)) as [z ->]. reflexivity. }
    unfold line_end, fin. cbn [is_active is_end snd last_opt app]. rewrite NL. destruct (last_opt (T ++ raw)) as [c|]; [|reflexivity]. cbn in HE. rewrite HE.
    cbn [is_ground_nl]. destruct (c =? LF); reflexivity.
  - rewrite <- app_assoc in C, S, HE. rewrite Forall_app in C. destruct C as [C1 C2].
    assert (S1 : b = true -> hstart r) by (intro B; destruct r as [|c r]; [reflexivity|]; apply (hstart_first _ (concat evs ++ raw)); [now apply S|discriminate]).
    destruct (trans_clean r b nl C1 S1) as (b' & nl' & -> & E1 & E2). f_equal. rewrite <- app_assoc. rewrite (app_assoc T r). apply IH.
    + exact C2.
    + intro B. destruct r as [|c r]; [destruct (E1 eq_refl) as [-> _]; now apply S|]. destruct (E2 ltac:(discriminate)) as [-> _]. discriminate.
    + intro E. apply app_eq_nil in E. destruct E as [-> ->]. destruct (E1 eq_refl) as [_ ->]. now apply N1.
    + intros c. rewrite ReadFacts.last_opt_app. destruct r as [|d r]; [destruct (E1 eq_refl) as [_ ->]; apply N2|]. destruct (E2 ltac:(discriminate)) as [_ ->].
      destruct (last_nonnil (d :: r) ltac:(discriminate)) as [z ->]. congruence.
    + now rewrite <- app_assoc.
Qed.

(** * The cuts of a script *)
Lemma pieces_evs : forall script, no_push script -> exists evs raw, pieces_read script = evs ++ [raw] /\ evs_of script = map (fun r => (r, Active)) evs ++ [(raw, End)] /\
  stream_text script = concat evs ++ raw.
Proof.
  induction script as [|[cs s|] t IH]; intro H; cbn.
  - exists [], []. auto.
  - assert (HT : no_push t) by (intros c Hc; apply (H c); now right). destruct (IH HT) as (e & r & -> & -> & ->).
    destruct s; [|exfalso; apply (H cs); now left|exists [], cs; auto]. exists (cs :: e), r. cbn. now rewrite app_assoc.
  - apply IH. intros c Hc; apply (H c); now right.
Qed.
Lemma cutb_spec : forall T R, cutb T R = true <-> bad_cut T R.
Proof.
  intros T R. unfold cutb, bad_cut. rewrite andb_true_iff. split.
  - intros [H F]. unfold ends_cgj in H. destruct (complete_cases T) as [[E NB]|(a & x & E & HX)]; [rewrite E in H; discriminate|].
    rewrite E, last_opt_snoc in H. apply N.eqb_eq in H. subst x. destruct (incomplete T ++ R) as [|c b] eqn:EI; [discriminate|]. cbn [first_unassigned] in F.
    pose proof (incomplete_nb T) as NB. exists a, (incomplete T), c, b. split; [rewrite (blocks_split T) at 1; rewrite E, <- app_assoc; reflexivity|].
    unfold no_boundary in NB. rewrite Forall_forall in NB. split; [intro I; specialize (NB _ I); discriminate|]. split; [intro I; specialize (NB _ I); discriminate|].
    split; [exact EI|now destruct (is_assigned c)].
  - intros (a & d & c & b & -> & N1 & N2 & E & U). change 0x34F with CGJ in *. change 0xA with LF in *.
    assert (NB : no_boundary d). { apply Forall_forall. intros x I. destruct (is_boundary x) eqn:B; [|reflexivity]. apply is_boundary_spec in B. destruct B as [-> | ->]; contradiction. }
    pose proof (last_boundary_intro a CGJ d (or_intror eq_refl) NB) as LB. replace (a ++ CGJ :: d) with ((a ++ [CGJ]) ++ d) by now rewrite <- app_assoc.
    unfold ends_cgj, complete, incomplete. rewrite LB. rewrite firstn_app, skipn_app, Nat.sub_diag, firstn_all, skipn_all. cbn [firstn skipn app]. rewrite app_nil_r, last_opt_snoc.
    split; [apply N.eqb_refl|]. rewrite E. cbn [first_unassigned]. now rewrite U.
Qed.
Lemma bad_cut_line : forall p r l, l = [] \/ l = [LF] -> bad_cut p (r ++ l) <-> bad_cut p r.
Proof.
  intros p r l H. split; intros (a & d & c & b & E & N1 & N2 & ED & U).
  - exists a, d, c. rewrite app_assoc in ED. destruct (d ++ r) as [|x w] eqn:EW.
    + exfalso. cbn in ED. destruct H as [-> | ->]; [discriminate|]. injection ED as <- _. now rewrite assigned_LF in U.
    + injection ED as -> _. exists w. auto.
  - exists a, d, c, (b ++ l). rewrite app_assoc, ED. auto.
Qed.
Lemma line_end_cases : forall v, line_end v = [] \/ line_end v = [LF].
Proof. intro v. unfold line_end. destruct (last_opt v) as [c|]; [|now left]. destruct (c =? LF); auto. Qed.
Lemma accepts_clean : forall v, strict_accepts v -> all_clean v /\ hstart v.
Proof.
  intros v (HS & _ & A). split; [now apply Forall_allowed_clean|]. destruct v as [|c v]; [reflexivity|]. exact (HS c v eq_refl).
Qed.

Theorem converted_cuts : forall script, no_push script -> strict_accepts (stream_text script) ->
  let v := stream_text script in let whole := pipeline (v ++ line_end v) in let got := converted_stream false false script in
  (badly_cut script /\ (length whole < length got)%nat) \/ (~ badly_cut script /\ got = whole).
Proof.
  intros script NP SA. cbv zeta. destruct (pieces_evs _ NP) as (evs & raw & EP & EE & ET). destruct (accepts_clean _ SA) as [C S]. destruct SA as (_ & HE & _).
  remember (stream_text script) as v eqn:EV. clear EV. rewrite ET in C, S, HE.
  pose proof (outs_clean evs raw [] true true C (fun _ => S) (fun _ => eq_refl) ltac:(discriminate) HE) as EO. cbn [app] in EO. rewrite <- ET in EO.
  destruct (feed_outs false false evs raw [] (true, Ground true) tinv_new) as [EF IN]. rewrite EO in EF, IN. cbn [app] in IN.
  assert (EG : converted_stream false false script = piecewise [] (evs ++ [raw ++ line_end v])).
  { unfold converted_stream. rewrite EE. rewrite feed_restart by (destruct evs; discriminate). change (incomplete []) with (@nil N) in EF. rewrite <- EF. do 2 f_equal.
    assert (B : forall r w, concat evs ++ raw = r ++ w -> body true r = r).
    { intros [|c r] w E; [reflexivity|]. rewrite E in C. inversion C as [|? ? C1 _]; subst. cbn. destruct (N.eqb_spec c BOM) as [K|_]; [|reflexivity]. apply clean_special in C1. intuition. }
    destruct evs as [|r evs]; cbn [map app restart].
    - now rewrite (B raw []) by (cbn; now rewrite app_nil_r).
    - now rewrite (B r (concat evs ++ raw)) by (cbn; now rewrite app_assoc). }
  rewrite EG. pose proof (piecewise_cut (evs ++ [raw ++ line_end v]) [] IN) as PC. cbv zeta in PC. change (incomplete []) with (@nil N) in PC. change (ends_cgj []) with false in PC. cbn [app] in PC.
  assert (EC : concat (evs ++ [raw ++ line_end v]) = v ++ line_end v) by (rewrite concat_app; cbn [concat]; rewrite app_nil_r, app_assoc; now rewrite <- ET).
  rewrite EC in PC. rewrite seam_pipeline.
  assert (BC : (exists x y, evs ++ [raw ++ line_end v] = x ++ y /\ cutb (concat x) (concat y) = true) <-> badly_cut script).
  { unfold badly_cut. rewrite EP. split.
    - intros (x & y & E & CB). destruct y as [|y0 y _] using rev_ind.
      + exfalso. rewrite app_nil_r in E. rewrite <- E in CB. unfold cutb in CB. rewrite IN in CB. cbn in CB. now rewrite andb_false_r in CB.
      + rewrite app_assoc in E. apply app_inj_tail in E. destruct E as [E <-]. apply cutb_spec in CB.
        assert (CB' : bad_cut (concat x) (concat (y ++ [raw]))).
        { rewrite concat_app in *. cbn [concat] in *. rewrite app_nil_r in *. rewrite app_assoc in CB. now apply bad_cut_line in CB; [|apply line_end_cases]. }
        rewrite E. destruct y as [|z y]; [exists x, raw, []|exists x, z, (y ++ [raw])]; split; auto; now rewrite <- app_assoc.
    - intros (x & y & z & E & CB). destruct z as [|w z _] using rev_ind.
      + apply app_inj_tail in E. destruct E as [-> ->]. exists x, [y ++ line_end v]. split; [reflexivity|]. apply cutb_spec. cbn [concat] in *. rewrite app_nil_r in *. now apply bad_cut_line; [apply line_end_cases|].
      + change (y :: z ++ [w]) with ((y :: z) ++ [w]) in *. rewrite app_assoc in E. apply app_inj_tail in E. destruct E as [-> ->]. exists x, ((y :: z) ++ [w ++ line_end v]).
        split; [now rewrite <- app_assoc|]. apply cutb_spec. rewrite concat_app in *. cbn [concat] in *. rewrite app_nil_r in *. rewrite app_assoc. apply bad_cut_line; [apply line_end_cases|exact CB]. }
  destruct PC as [[CB L]|[CB E]].
  - left. split; [now apply BC|exact L].
  - right. split; [|exact E]. intro K. apply BC in K. destruct K as (x & y & E2 & K). rewrite (CB _ _ E2) in K. discriminate.
Qed.

(** * Sessions *)
Theorem cut_exact : forall script sizes rs j rest sizes1 rs1 j1 rest1, no_push script -> strict_accepts (stream_text script) ->
  reads (new_input false false) script sizes = (rs, j, rest) -> reached_end rs ->
  reads (new_input false false) [Chunk (stream_text script) End] sizes1 = (rs1, j1, rest1) -> reached_end rs1 ->
  (delivered rs = delivered rs1 <-> ~ badly_cut script) /\ (badly_cut script -> (length (delivered rs1) < length (delivered rs))%nat).
Proof.
  intros script sizes rs j rest sizes1 rs1 j1 rest1 NP SA R E R1 E1.
  destruct (session_end _ _ _ _ _ _ _ R E) as (-> & _). destruct (session_end _ _ _ _ _ _ _ R1 E1) as (-> & _).
  rewrite converted_whole, accepts_translate by exact SA.
  destruct (converted_cuts script NP SA) as [[B L]|[B ->]]; (split; [split|]); intro K; auto; try contradiction. rewrite K in L. lia.
Qed.
Theorem kept_cut_exact : forall script sizes rs j rest, no_push script -> reads (new_input false false) script sizes = (rs, j, rest) -> reached_end rs ->
  delivered rs = stream_text script <-> string_ok (stream_text script) /\ line_terminated (stream_text script) /\ preceded (stream_text script) /\ ~ badly_cut script.
Proof.
  intros script sizes rs j rest NP R E. destruct (session_end _ _ _ _ _ _ _ R E) as (-> & _).
  assert (G : string_ok (stream_text script) -> line_terminated (stream_text script) -> preceded (stream_text script) -> converted_stream false false script = stream_text script <-> ~ badly_cut script).
  { intros OK LT PR. assert (LE : line_end (stream_text script) = []).
    { unfold line_end. destruct LT as [->|[t ->]]; [reflexivity|]. now rewrite last_opt_snoc. }
    pose proof (converted_cuts script NP (ok_accepted _ OK)) as C. cbv zeta in C. rewrite LE, app_nil_r, ok_pipeline in C by assumption.
    destruct C as [[B L]|[B ->]]; split; intro K; auto; try contradiction. rewrite K in L. lia. }
  split; [|intros (A & B & C & D); now apply G].
  intro K. pose proof (converted_ok false false script) as [A B]. pose proof (converted_preceded false false script) as PR. rewrite K in A, B, PR.
  apply basic_text_spec in A. repeat (split; [assumption|]). now apply G.
Qed.
Lemma lossy_only : forall s text, string_ok s -> lossy_result s text = Some s -> s <> [] -> text = s ++ line_end s.
Proof.
  intros s text H E NE. destruct (ok_no_bom _ H) as [_ NB]. unfold lossy_result in E. destruct s as [|c s]; [congruence|].
  assert (c =? BOM = false) as EB by (apply N.eqb_neq; intros ->; now apply (NB s)). rewrite EB in E.
  unfold line_end. destruct (last_opt (c :: s)) as [x|] eqn:EL; [|apply last_opt_none in EL; discriminate].
  assert (NCR : x =? CR = false).
  { apply N.eqb_neq. intros ->. apply last_opt_some in EL. destruct EL as [t EL]. rewrite EL in H. destruct H as ((_ & _ & A) & _). apply Forall_app in A. destruct A as [_ A].
    inversion A as [|? ? C _]; subst. apply allowed_clean in C. vm_compute in C. discriminate. }
  rewrite NCR in E. destruct (x =? LF); cbn [orb] in E; [rewrite app_nil_r; congruence|].
  destruct text as [|l text _] using rev_ind; [discriminate|]. rewrite last_opt_snoc in E. destruct (l =? LF) eqn:EF; [|discriminate]. apply N.eqb_eq in EF. subst l.
  rewrite removelast_snoc in E. congruence.
Qed.
Theorem lossy_cut_exact : forall script sizes rs j rest, no_push script -> no_fail script -> string_ok (stream_text script) -> preceded (stream_text script) ->
  reads (new_input false false) script sizes = (rs, j, rest) -> reached_end rs ->
  lossy_result (stream_text script) (received rs) = Some (stream_text script) <-> ~ badly_cut script.
Proof.
  intros script sizes rs j rest NP NF OK PR R E. rewrite (received_delivered _ _ _ _ _ _ (wf_new _ _) NF R). destruct (session_end _ _ _ _ _ _ _ R E) as (-> & _).
  pose proof (converted_cuts script NP (ok_accepted _ OK)) as C. cbv zeta in C. rewrite ok_line in C by assumption.
  destruct C as [[B L]|[B ->]].
  - split; [|contradiction]. intros K _. destruct (list_eq_dec N.eq_dec (stream_text script) []) as [Z|NE].
    + destruct B as (x & y & z & EP & a & d & c & b & EX & _). destruct (pieces_evs _ NP) as (evs & raw & EQ & _ & ET). rewrite Z in ET. symmetry in ET. apply app_eq_nil in ET. destruct ET as [T1 T2].
      assert (EC : concat (pieces_read script) = []) by (rewrite EQ, concat_app; cbn [concat]; rewrite T1, T2; reflexivity).
      rewrite EP, concat_app, EX in EC. destruct a; discriminate.
    + apply lossy_only in K; auto. rewrite K in L. lia.
  - split; [auto|]. intros _. now apply lossy_of_line.
Qed.
Theorem lossy_cut_iff : forall script sizes rs j rest, no_push script -> no_fail script -> string_ok (stream_text script) ->
  reads (new_input false false) script sizes = (rs, j, rest) -> reached_end rs ->
  lossy_result (stream_text script) (received rs) = Some (stream_text script) <-> preceded (stream_text script) /\ ~ badly_cut script.
Proof.
  intros script sizes rs j rest NP NF OK R E. split; [|intros [PR B]; eapply lossy_cut_exact; eauto].
  intro K. assert (PR : preceded (stream_text script)); [|split; [exact PR|eapply lossy_cut_exact; eauto]].
  destruct (list_eq_dec N.eq_dec (stream_text script) []) as [-> |NE]; [apply preceded_nil|].
  apply lossy_only in K; auto. rewrite (received_delivered _ _ _ _ _ _ (wf_new _ _) NF R) in K. destruct (session_end _ _ _ _ _ _ _ R E) as (EQ & _). rewrite EQ in K.
  apply (preceded_prefix _ (line_end (stream_text script))). rewrite <- K. apply converted_preceded.
Qed.
Theorem fuzz_cut_exact : forall bs script sizes rs j rest, stream_text script = utf8_lossy bs -> no_push script -> no_fail script -> bom_visible script ->
  reads (new_input false false) script sizes = (rs, j, rest) -> reached_end rs ->
  fuzz bs (received rs) = None <-> write_and_close bs = None \/ ~ badly_cut script.
Proof.
  intros bs script sizes rs j rest ES NP NF BV R E.
  assert (RA : reads_as (utf8_lossy bs) (received rs)) by (exists script, sizes, rs, j, rest; auto 8).
  assert (AG : forall v, scalars v -> bs = encode_all v -> closes v -> received rs = pipeline v <-> ~ badly_cut script).
  { intros v S -> C. rewrite utf8_lossy_valid in ES by exact S. rewrite (received_delivered _ _ _ _ _ _ (wf_new _ _) NF R). destruct (session_end _ _ _ _ _ _ _ R E) as (-> & _).
    assert (LE : line_end v = []) by (unfold line_end; destruct C as [_ [->|[t ->]]]; [reflexivity|now rewrite last_opt_snoc]).
    assert (SA : strict_accepts (stream_text script)) by (rewrite ES; apply C).
    pose proof (converted_cuts script NP SA) as K. cbv zeta in K. rewrite ES, LE, app_nil_r in K.
    destruct K as [[B L]|[B ->]]; split; intro Z; auto; try contradiction. rewrite Z in L. lia. }
  split.
  - intro F. destruct (write_and_close bs) as [t|] eqn:W; [right|now left]. pose proof W as W2. apply write_and_close_spec in W. destruct W as (v & S & EB & C & ->).
    apply (AG v S EB C). destruct (reads_as_ok _ _ RA) as (OK & LT & PR). unfold fuzz in F. rewrite first_failure_app in F by now apply text_assertions.
    rewrite W2 in F. cbn [app first_failure] in F. destruct (list_eqb (received rs) (pipeline v)) eqn:EQ; [now apply list_eqb_eq|discriminate].
  - intro K. apply fuzz_reads; [exact RA|]. intros v S EB C. apply (AG v S EB C). destruct K as [K|K]; [|exact K].
    assert (W : write_and_close bs = Some (pipeline v)) by (apply write_and_close_spec; exists v; auto). congruence.
Qed.
(** A text that arrives whole, the end being reported by a second, empty read. *)
Theorem whole_then_end : forall v, isolated v \/ line_terminated v -> ~ badly_cut [Chunk v Active].
Proof.
  intros v H (x & y & z & E & a & d & c & b & EX & N1 & N2 & ED & U). cbn in E.
  destruct x as [|x0 x]; [destruct a; discriminate|]. injection E as <- E. destruct x as [|x1 x]; [|destruct x; discriminate]. injection E as <- <-.
  cbn in EX, ED. rewrite app_nil_r in EX, ED. subst d v. destruct H as [H|H].
  - destruct (H (a ++ [0x34F]) c b) as [_ [y ->]]; [now rewrite <- app_assoc|exact U|]. apply N1. right. now left.
  - destruct H as [H|[u H]]; [destruct a; discriminate|]. apply N2. destruct b as [|l b _] using rev_ind.
    + change (a ++ 847 :: [c]) with (a ++ [847] ++ [c]) in H. rewrite app_assoc in H. apply app_inj_tail in H. destruct H as [_ ->]. now left.
    + change (a ++ 847 :: c :: b ++ [l]) with (a ++ (847 :: c :: b) ++ [l]) in H. rewrite app_assoc in H. apply app_inj_tail in H. destruct H as [_ ->]. right. apply in_or_app. right. now left.
Qed.
