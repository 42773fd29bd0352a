(** The conversion of streams with pushes. *)
From Coq Require Import NArith Arith List Bool Lia ZifyBool ZifyNat ZifyN.
From Verif Require Import Base Ucd UcdTables Norm Chars TextTables TextUtils UcdFacts NormFacts CharFacts DocTable SpecText TextFacts PipelineFacts DocFacts IsoFacts
  Utf8 Utf8Facts Input Output ReadFacts ReadInv ReadSession SpecRead ReadChunk SpecEscape EscapeFacts EscapeRun ReadProps KeepFacts ReadPieces SpecConv ConvFacts DocProps CatProps SpecPush.
Import ListNotations.
Local Open Scope N_scope.
Arguments N.add : simpl never.
Arguments N.leb : simpl never.
Arguments N.ltb : simpl never.
Arguments N.eqb : simpl never.
Local Opaque pipeline.

(** * All the text translated for a list of reads, after the text [T] *)
Fixpoint tr (nel lsps : bool) (T : list N) (x : tstate) (evs : list (list N * status)) : list N * tstate :=
  match evs with
  | [] => ([], x)
  | (raw, s) :: t =>
      let '(o, x1) := trans nel lsps x raw in
      let '(o2, x2) := fin s (last_opt (T ++ o)) x1 in
      let '(o3, x3) := tr nel lsps (T ++ o ++ o2) (if is_active s then fst x2 else true, snd x2) t in
      (o ++ o2 ++ o3, x3)
  end.
Lemma feed_tr : forall nel lsps evs T x new a, unguarded_text (T ++ fst (tr nel lsps T x evs)) ->
  feed nel lsps (mkabs (incomplete T) x false) evs = (new, a) -> pipeline (complete T) ++ new = pipeline (complete (T ++ fst (tr nel lsps T x evs))).
Proof.
  induction evs as [|[raw s] evs IH]; intros T x new a U H.
  - cbn in H. injection H as <- _. cbn [tr fst]. now rewrite !app_nil_r.
  - cbn [feed tr] in *. unfold absorb, pushed in H. cbn [a_res a_ts a_start body] in H.
    destruct (trans nel lsps x raw) as [o x1]. rewrite fin_last2 in H. destruct (fin s (last_opt (T ++ o)) x1) as [o2 x2].
    rewrite <- (proj2 (complete_app T (o ++ o2))) in H.
    set (x3 := (if is_active s then fst x2 else true, snd x2)) in *.
    destruct (feed nel lsps (mkabs (incomplete (T ++ o ++ o2)) x3 false) evs) as [n2 a2] eqn:EF. injection H as <- <-.
    specialize (IH (T ++ o ++ o2) x3 n2 a2). destruct (tr nel lsps (T ++ o ++ o2) x3 evs) as [o3 x4]. cbn [fst] in *.
    replace (T ++ o ++ o2 ++ o3) with ((T ++ o ++ o2) ++ o3) in * by now rewrite <- !app_assoc.
    rewrite <- (IH U EF), app_assoc. f_equal. apply pipe_complete. exact (unguarded_prefix _ _ U).
Qed.
Lemma feed_tr_pieces : forall nel lsps evs T x new a,
  feed nel lsps (mkabs (incomplete T) x false) evs = (new, a) ->
  exists ps, concat ps ++ incomplete (T ++ fst (tr nel lsps T x evs)) = incomplete T ++ fst (tr nel lsps T x evs) /\ Forall piece ps /\ new = concat (map pipeline ps).
Proof.
  induction evs as [|[raw s] evs IH]; intros T x new a H.
  - cbn in H. injection H as <- _. exists []. cbn [tr fst concat]. now rewrite !app_nil_r.
  - cbn [feed tr] in *. unfold absorb, pushed in H. cbn [a_res a_ts a_start body] in H.
    destruct (trans nel lsps x raw) as [o x1]. rewrite fin_last2 in H. destruct (fin s (last_opt (T ++ o)) x1) as [o2 x2].
    rewrite <- (proj2 (complete_app T (o ++ o2))) in H.
    set (x3 := (if is_active s then fst x2 else true, snd x2)) in *.
    destruct (feed nel lsps (mkabs (incomplete (T ++ o ++ o2)) x3 false) evs) as [n2 a2] eqn:EF. injection H as <- <-.
    destruct (IH (T ++ o ++ o2) x3 n2 a2 EF) as (ps & E & F & ->). destruct (tr nel lsps (T ++ o ++ o2) x3 evs) as [o3 x4]. cbn [fst] in *.
    replace (T ++ o ++ o2 ++ o3) with ((T ++ o ++ o2) ++ o3) by now rewrite <- !app_assoc.
    rewrite (proj2 (complete_app T (o ++ o2))) in E.
    assert (B : incomplete T ++ o ++ o2 ++ o3 = complete (incomplete T ++ o ++ o2) ++ incomplete (incomplete T ++ o ++ o2) ++ o3).
    { rewrite (app_assoc (complete _)), <- blocks_split. now rewrite <- !app_assoc. }
    rewrite B. destruct (complete_piece (incomplete T ++ o ++ o2)) as [C|C].
    + rewrite C, pipeline_nil. exists ps. auto.
    + exists (complete (incomplete T ++ o ++ o2) :: ps). cbn [concat map]. rewrite <- app_assoc, E. auto.
Qed.

(** * Segments *)
Lemma tr_active : forall nel lsps T x r1 r2 s evs, tr nel lsps T x ((r1, Active) :: (r2, s) :: evs) = tr nel lsps T x ((r1 ++ r2, s) :: evs).
Proof.
  intros nel lsps T x r1 r2 s evs. cbn [tr]. rewrite trans_app. destruct (trans nel lsps x r1) as [o x1]. cbn [fin is_active]. rewrite app_nil_r.
  replace (fst x1, snd x1) with x1 by now destruct x1. destruct (trans nel lsps x1 r2) as [o' x2]. rewrite <- app_assoc.
  destruct (fin s (last_opt (T ++ o ++ o')) x2) as [o2 x3]. rewrite <- !app_assoc.
  destruct (tr nel lsps (T ++ o ++ o' ++ o2) (if is_active s then fst x3 else true, snd x3) evs). now rewrite <- !app_assoc.
Qed.
Fixpoint seg_evs (segs : list (list N)) : list (list N * status) :=
  match segs with
  | [] => []
  | [s] => [(s, End)]
  | s :: t => (s, Push) :: seg_evs t
  end.
Lemma segments_nonnil : forall script, segments script <> [].
Proof. induction script as [|[cs []|] t IH]; cbn; try discriminate; [|exact IH]. destruct (segments t); discriminate. Qed.
Lemma tr_segments : forall nel lsps script T x, tr nel lsps T x (evs_of script) = tr nel lsps T x (seg_evs (segments script)).
Proof.
  induction script as [|[cs s|] t IH]; intros T x; [reflexivity| |apply IH].
  assert (E : forall s, tr nel lsps T x ((cs, s) :: evs_of t) = tr nel lsps T x ((cs, s) :: seg_evs (segments t))).
  { intro s0. cbn [tr]. destruct (trans nel lsps x cs) as [o x1]. destruct (fin s0 (last_opt (T ++ o)) x1) as [o2 x2]. now rewrite IH. }
  destruct s; cbn [evs_of segments]; [| |reflexivity]; rewrite E; pose proof (segments_nonnil t) as NN; destruct (segments t) as [|s0 [|s1 r]]; try congruence; try reflexivity; apply tr_active.
Qed.

(** the state after a segment *)
Lemma fin_push : forall l x o o1 x1, settle x = (o1, x1) -> l = last_opt o ->
  fin Push l x = (o1 ++ match last_opt (o ++ o1) with Some y => if is_basic_text_end y then [] else [CGJ] | None => [] end, x1).
Proof.
  intros l [e t] o o1 x1 H ->. unfold settle in H. unfold fin. cbn [is_active is_end snd fst] in *.
  match goal with |- context [let '(_, _) := ?m in _] => assert (E : m = (o1, x1)) by (rewrite <- H; now destruct t) end.
  rewrite E. clear E. now rewrite last_opt_app.
Qed.
Lemma guard_end_opt : forall s, guard_end s = s ++ match last_opt s with Some y => if is_basic_text_end y then [] else [CGJ] | None => [] end.
Proof. intro s. unfold guard_end. destruct (last_opt s) as [y|]; [destruct (is_basic_text_end y)|]; now rewrite ?app_nil_r. Qed.
Lemma opt_end_after : forall T s, ends_ok T ->
  match last_opt (T ++ s) with Some y => if is_basic_text_end y then [] else [CGJ] | None => [] end =
  match last_opt s with Some y => if is_basic_text_end y then [] else [CGJ] | None => [] end.
Proof.
  intros T s E. rewrite last_opt_app. destruct (last_opt s) as [y|] eqn:ES; [reflexivity|].
  destruct (last_opt T) as [y|] eqn:ET; [|reflexivity]. apply last_opt_some in ET as [t ->]. now rewrite (E t y eq_refl).
Qed.
Lemma guard_end_ends : forall s, ends_ok (guard_end s).
Proof.
  intros s t c E. unfold guard_end in E. destruct (last_opt s) as [y|] eqn:ES.
  - destruct (is_basic_text_end y) eqn:EY.
    + subst s. rewrite last_opt_snoc in ES. now injection ES as ->.
    + apply app_inj_tail in E as [_ <-]. exact end_CGJ.
  - apply last_opt_none in ES. subst. now destruct t.
Qed.
Lemma ends_ok_app : forall a b, ends_ok a -> ends_ok b -> ends_ok (a ++ b).
Proof.
  intros a b HA HB t c E. destruct b as [|y b] using rev_ind; [rewrite app_nil_r in E; eauto|]. rewrite app_assoc in E. apply app_inj_tail in E as [_ <-]. now apply (HB b).
Qed.

(** one segment that ends with a push *)
Lemma tr_push : forall nel lsps T b s rs evs, ends_ok T -> replaced true (char_rep nel lsps) s rs ->
  tr nel lsps T (true, Ground b) ((s, Push) :: evs) =
  let '(o, x) := tr nel lsps (T ++ guarded rs) (true, Ground (last_nl b rs)) evs in (guarded rs ++ o, x).
Proof.
  intros nel lsps T b s rs evs ET HR. destruct (run_replaced nel lsps s) as (rs' & HR' & RUN). rewrite (replaced_det _ _ _ _ HR' _ HR) in RUN.
  specialize (RUN true b). cbn [tr]. unfold run in RUN. destruct (trans nel lsps (true, Ground b) s) as [o x]. destruct (settle x) as [o1 x1] eqn:ES.
  rewrite (fin_push _ _ _ _ _ ES eq_refl). injection RUN as E1 ->. cbn [is_active snd].
  rewrite <- app_assoc, (opt_end_after T (o ++ o1) ET).
  assert (EG : o ++ o1 ++ match last_opt (o ++ o1) with Some y => if is_basic_text_end y then [] else [CGJ] | None => [] end = guarded rs).
  { unfold guarded. rewrite guard_end_opt, app_assoc. cbn [guard] in E1. now rewrite E1. }
  rewrite EG. destruct (tr nel lsps (T ++ guarded rs) (true, Ground (last_nl b rs)) evs) as [o3 x3]. f_equal. rewrite <- EG, <- !app_assoc. reflexivity.
Qed.
Lemma fin_End : forall l x, fin End l x = let '(o, x1) := fin Push l x in if is_ground_nl (snd x1) then (o, x1) else (o ++ [LF], (false, Ground true)).
Proof.
  intros l [e t]. unfold fin. cbn [is_active is_end snd fst].
  destruct (match t with Ground _ => _ | _ => _ end) as [o1 x1]. destruct (is_ground_nl (snd x1)); [reflexivity|]. now rewrite <- app_assoc.
Qed.
Lemma tr_end : forall nel lsps T b s rs, ends_ok T -> replaced true (char_rep nel lsps) s rs ->
  fst (tr nel lsps T (true, Ground b) [(s, End)]) = guarded rs ++ (if last_nl b rs then [] else [LF]) /\
  is_ground_nl (snd (snd (tr nel lsps T (true, Ground b) [(s, End)]))) = true.
Proof.
  intros nel lsps T b s rs ET HR. pose proof (tr_push nel lsps T b s rs [] ET HR) as P. cbn [tr] in *.
  destruct (trans nel lsps (true, Ground b) s) as [o x]. rewrite fin_End. destruct (fin Push (last_opt (T ++ o)) x) as [o2 x2]. cbn [is_active snd fst] in *.
  rewrite !app_nil_r in P. injection P as <- E2. rewrite E2. cbn [is_ground_nl]. destruct (last_nl b rs) eqn:EL; cbn [fst snd is_active]; rewrite ?app_nil_r, ?E2, ?EL; cbn [is_ground_nl]; [auto|].
  now rewrite <- !app_assoc.
Qed.
Lemma last_nl_app : forall b r1 r2, last_nl b (r1 ++ r2) = last_nl (last_nl b r1) r2.
Proof.
  intros b r1 r2. unfold last_nl. destruct r2 as [|r r2] using rev_ind; [now rewrite app_nil_r|]. now rewrite app_assoc, !last_opt_snoc.
Qed.
Lemma tr_all : forall nel lsps segs rss T b, segs <> [] -> Forall2 (replaced true (char_rep nel lsps)) segs rss -> ends_ok T ->
  fst (tr nel lsps T (true, Ground b) (seg_evs segs)) = concat (map guarded rss) ++ (if last_nl b (concat rss) then [] else [LF]) /\
  is_ground_nl (snd (snd (tr nel lsps T (true, Ground b) (seg_evs segs)))) = true.
Proof.
  induction segs as [|s segs IH]; intros rss T b NE F ET; [congruence|]. inversion F as [|? rs ? rss' HR F' E1 E2]; subst.
  destruct segs as [|s2 segs].
  - inversion F'; subst. cbn [seg_evs map concat]. rewrite !app_nil_r. now apply tr_end.
  - cbn [seg_evs]. change (match segs with [] => [(s2, End)] | _ :: _ => (s2, Push) :: seg_evs segs end) with (seg_evs (s2 :: segs)).
    rewrite (tr_push _ _ _ _ _ rs) by assumption. specialize (IH rss' (T ++ guarded rs) (last_nl b rs) ltac:(discriminate) F').
    destruct IH as [E G]. { apply ends_ok_app; [exact ET|apply guard_end_ends]. }
    destruct (tr nel lsps (T ++ guarded rs) (true, Ground (last_nl b rs)) (seg_evs (s2 :: segs))) as [o x]. cbn [fst snd] in *.
    split; [|exact G]. rewrite E. cbn [map concat]. rewrite last_nl_app, <- app_assoc. reflexivity.
Qed.
Lemma tr_inv : forall nel lsps evs T x, tinv [] T x -> tinv [] (T ++ fst (tr nel lsps T x evs)) (snd (tr nel lsps T x evs)).
Proof.
  induction evs as [|[raw s] evs IH]; intros T x I; cbn [tr fst snd]; [now rewrite app_nil_r|].
  destruct (trans nel lsps x raw) as [o x1] eqn:ET. pose proof (trans_inv _ _ _ _ _ _ _ _ I ET) as T1.
  destruct (fin s (last_opt (T ++ o)) x1) as [o2 x2] eqn:EF. pose proof (fin_inv _ _ _ _ _ _ T1 EF) as T2. rewrite <- app_assoc in T2.
  assert (T3 : tinv [] (T ++ o ++ o2) (if is_active s then fst x2 else true, snd x2)).
  { destruct T2 as [A B C D]. constructor; auto. intros H1 H2. destruct (C H1 H2); destruct (is_active s); auto. }
  specialize (IH _ _ T3). destruct (tr nel lsps (T ++ o ++ o2) (if is_active s then fst x2 else true, snd x2) evs) as [o3 x3]. cbn [fst snd] in *. now rewrite <- !app_assoc in *.
Qed.

(** * The beginning *)
Fixpoint strip (script : list event) : list event :=
  match script with
  | [] => []
  | Chunk cs s :: t => Chunk (body true cs) s :: t
  | Fail :: t => Fail :: strip t
  end.
Lemma evs_strip : forall script, restart (evs_of script) = evs_of (strip script).
Proof. induction script as [|[cs []|] t IH]; try reflexivity. exact IH. Qed.
Lemma segments_prefix : forall script, exists s r u, segments script = s :: r /\ stream_text script = s ++ u.
Proof.
  induction script as [|[cs []|] t IH]; cbn [segments stream_text].
  - now exists [], [], [].
  - destruct IH as (s & r & u & -> & ->). exists (cs ++ s), r, u. now rewrite app_assoc.
  - now exists cs, (segments t), (stream_text t).
  - exists cs, [], []. now rewrite app_nil_r.
  - exact IH.
Qed.
Lemma body_same : forall cs, (forall t, cs <> BOM :: t) -> body true cs = cs.
Proof.
  intros [|c cs] H; [reflexivity|]. rewrite <- without_body. cbn. destruct (c =? 0xFEFF) eqn:E; [|reflexivity]. apply N.eqb_eq in E. subst. now destruct (H cs).
Qed.
Lemma segments_strip : forall script, bom_visible script -> segments (strip script) = segments_read script.
Proof.
  intros script [H|(c & cs & s & t & ->)].
  - assert (E : strip script = script).
    { induction script as [|[cs s|] t IH]; [reflexivity| |cbn [strip]; f_equal; exact (IH H)]. cbn [strip]. f_equal. f_equal. apply body_same. intros u ->. destruct s; cbn in H; eapply H; reflexivity. }
    rewrite E. unfold segments_read. destruct (segments_prefix script) as (s & r & u & E1 & E2). rewrite E1. f_equal. rewrite without_body. symmetry. apply body_same.
    intros v ->. rewrite E2 in H. eapply H. reflexivity.
  - unfold segments_read. cbn [strip segments]. destruct (segments_prefix t) as (s0 & r & u & -> & _).
    assert (B : forall v, body true (c :: cs) ++ v = without_bom ((c :: cs) ++ v)) by (intro v; rewrite <- without_body; cbn; now destruct (c =? 65279)).
    destruct s; rewrite ?B; [reflexivity| |]; now rewrite <- without_body.
Qed.

(** * The whole *)
Lemma final_last : forall rs, final_newline rs = if last_nl true rs then [] else [LF].
Proof. intro rs. rewrite final_newline_eq. unfold needs_newline. now destruct (last_nl true rs). Qed.
Lemma tr_pushed : forall nel lsps segs rss, segs <> [] -> Forall2 (replaced true (char_rep nel lsps)) segs rss ->
  fst (tr nel lsps [] (true, Ground true) (seg_evs segs)) = pushed_text rss /\ complete (pushed_text rss) = pushed_text rss.
Proof.
  intros nel lsps segs rss NE F. destruct (tr_all nel lsps segs rss [] true NE F) as [E G]; [intros t c K; now destruct t|].
  rewrite <- final_last in E. fold (pushed_text rss) in E. split; [exact E|]. rewrite <- E.
  exact (tinv_done _ _ (tr_inv nel lsps (seg_evs segs) [] _ tinv_new) G).
Qed.
Lemma complete_incomplete : forall T, complete T = T -> incomplete T = [].
Proof. intros T E. pose proof (blocks_split T) as B. rewrite E in B. rewrite <- (app_nil_r T) in B at 1. now apply app_inv_head in B. Qed.
Lemma evs_nonnil : forall script, evs_of script <> [].
Proof. intros script E. destruct (evs_of_end script) as (evs & raw & K). rewrite E in K. now destruct evs. Qed.
Theorem converted_pushed : forall nel lsps script rss, bom_visible script -> Forall2 (replaced true (char_rep nel lsps)) (segments_read script) rss ->
  unguarded_text (pushed_text rss) -> converted_stream nel lsps script = pipeline (pushed_text rss).
Proof.
  intros nel lsps script rss BV F U. unfold converted_stream. rewrite feed_restart by apply evs_nonnil. rewrite evs_strip.
  destruct (feed nel lsps (mkabs [] (true, Ground true) false) (evs_of (strip script))) as [new a] eqn:EF. cbn [fst].
  rewrite <- (segments_strip _ BV) in F. destruct (tr_pushed nel lsps _ rss (segments_nonnil _) F) as [E C]. rewrite <- tr_segments in E.
  pose proof (feed_tr nel lsps (evs_of (strip script)) [] (true, Ground true) new a) as G. rewrite E in G. cbn [app] in G. specialize (G U EF).
  rewrite C in G. change (complete []) with (@nil N) in G. now rewrite pipeline_nil in G.
Qed.
Theorem converted_pushed_pieces : forall nel lsps script rss, bom_visible script -> Forall2 (replaced true (char_rep nel lsps)) (segments_read script) rss ->
  in_pieces (pushed_text rss) (converted_stream nel lsps script).
Proof.
  intros nel lsps script rss BV F. unfold converted_stream. rewrite feed_restart by apply evs_nonnil. rewrite evs_strip.
  destruct (feed nel lsps (mkabs [] (true, Ground true) false) (evs_of (strip script))) as [new a] eqn:EF. cbn [fst].
  rewrite <- (segments_strip _ BV) in F. destruct (tr_pushed nel lsps _ rss (segments_nonnil _) F) as [E C]. rewrite <- tr_segments in E.
  destruct (feed_tr_pieces nel lsps (evs_of (strip script)) [] (true, Ground true) new a EF) as (ps & EP & FP & ->). rewrite E in EP. cbn [app] in EP.
  rewrite (complete_incomplete _ C), app_nil_r in EP. exists ps. auto.
Qed.

(** * Pushes after lines *)
From Verif Require Import SpecCat.
Lemma starts_ok_app : forall a b, starts_ok a -> starts_ok b -> starts_ok (a ++ b).
Proof. intros [|x a] b HA HB; [exact HB|]. intros c t E. cbn in E. injection E as <- _. exact (HA x a eq_refl). Qed.
Lemma starts_ok_concat : forall nel lsps segs rss, Forall2 (replaced true (char_rep nel lsps)) segs rss -> Forall (begins_ok nel lsps) segs -> starts_ok (concat (concat rss)).
Proof.
  intros nel lsps segs rss F. induction F as [|s rs segs rss HR F IH]; intro B; [intros c t E; discriminate|].
  inversion B as [|? ? B1 B2]; subst. cbn [concat]. rewrite concat_app. apply starts_ok_app; [exact (B1 _ HR)|exact (IH B2)].
Qed.
Lemma made_line : forall rs, last_opt rs = Some [0xA] -> made rs = guarded rs.
Proof. intros rs L. unfold made, guarded, final_newline. rewrite L. cbn [list_eqb]. change (0xA =? 0xA) with true. cbn [andb]. apply app_nil_r. Qed.
Lemma final_after : forall rs rb, last_opt rs = Some [0xA] -> final_newline (rs ++ rb) = final_newline rb.
Proof.
  intros rs rb L. destruct rb as [|r rb] using rev_ind; [|unfold final_newline; now rewrite app_assoc, !last_opt_snoc].
  rewrite app_nil_r. unfold final_newline. rewrite L. cbn [list_eqb]. change (0xA =? 0xA) with true. reflexivity.
Qed.
Lemma pushed_lines : forall nel lsps segs rss, segs <> [] -> Forall2 (replaced true (char_rep nel lsps)) segs rss -> line_by_line nel lsps segs ->
  pushed_text rss = made (concat rss) /\ replaced true (char_rep nel lsps) (concat segs) (concat rss).
Proof.
  induction segs as [|s segs IH]; intros rss NE F [L B]; [congruence|]. inversion F as [|? rs ? rss' HR F' E1 E2]; subst.
  destruct segs as [|s2 segs].
  - inversion F'; subst. unfold pushed_text. cbn [concat map]. rewrite !app_nil_r. auto.
  - cbn [tl] in B. change (removelast (s :: s2 :: segs)) with (s :: removelast (s2 :: segs)) in L. inversion L as [|? ? (x & rs' & EX & HR' & LR) L2]; subst.
    rewrite (replaced_det _ _ _ _ HR' _ HR) in LR. destruct (IH rss' ltac:(discriminate) F') as [E R]. { split; [exact L2|]. cbn [tl]. now inversion B. }
    split.
    + destruct (made_cat rs (concat rss') LR) as (y & M1 & M2). cbn [concat]. rewrite M2. pose proof (starts_ok_concat _ _ _ _ F' B) as SO.
      destruct (made_starts (concat rss')) as [[M3 _]|(_ & _ & K)]; [|contradiction]. rewrite <- M3, <- E. change (y ++ LF :: pushed_text rss') with (y ++ [LF] ++ pushed_text rss').
      rewrite app_assoc, <- M1, made_line by exact LR. unfold pushed_text. cbn [map concat]. rewrite final_after by exact LR. now rewrite <- app_assoc.
    + change (concat ((x ++ [0xA]) :: s2 :: segs)) with ((x ++ [0xA]) ++ concat (s2 :: segs)). cbn [concat] in R |- *. apply replaced_app; eauto.
Qed.
Lemma segments_concat : forall script, concat (segments script) = stream_text script.
Proof.
  induction script as [|[cs []|] t IH]; cbn [segments stream_text]; [reflexivity| | | |exact IH].
  - destruct (segments t) as [|s r] eqn:E; [now destruct (segments_nonnil t)|]. rewrite <- IH. cbn [concat]. now rewrite app_assoc.
  - cbn [concat]. now rewrite IH.
  - cbn. apply app_nil_r.
Qed.
Lemma stream_strip : forall script, bom_visible script -> stream_text (strip script) = without_bom (stream_text script).
Proof. intros script B. rewrite <- evs_text, <- evs_strip. now apply restart_text. Qed.
Lemma segments_read_concat : forall script, bom_visible script -> concat (segments_read script) = without_bom (stream_text script).
Proof. intros script B. rewrite <- segments_strip, segments_concat by exact B. now apply stream_strip. Qed.
Lemma segments_read_nonnil : forall script, segments_read script <> [].
Proof. intro script. unfold segments_read. pose proof (segments_nonnil script). destruct (segments script); [congruence|discriminate]. Qed.
Lemma all_replaced : forall nel lsps segs, exists rss, Forall2 (replaced true (char_rep nel lsps)) segs rss.
Proof.
  induction segs as [|s segs [rss F]]; [now exists []|]. destruct (replaced_total nel lsps s) as [rs R]. exists (rs :: rss). now constructor.
Qed.

(** * Sessions *)
Theorem session_pushed : forall nel lsps script sizes out j rest rss, reads (new_input nel lsps) script sizes = (out, j, rest) -> reached_end out ->
  bom_visible script -> Forall2 (replaced true (char_rep nel lsps)) (segments_read script) rss -> unguarded_text (pushed_text rss) ->
  delivered out = pipeline (pushed_text rss).
Proof. intros nel lsps script sizes out j rest rss H E BV F U. destruct (session_end _ _ _ _ _ _ _ H E) as (-> & _). now apply converted_pushed. Qed.
Theorem session_pushed_pieces : forall nel lsps script sizes out j rest rss, reads (new_input nel lsps) script sizes = (out, j, rest) -> reached_end out ->
  bom_visible script -> Forall2 (replaced true (char_rep nel lsps)) (segments_read script) rss ->
  exists pieces, concat pieces = pushed_text rss /\
    Forall (fun p => exists a x, p = a ++ [x] /\ (x = 0xA \/ x = 0x34F)) pieces /\ delivered out = concat (map pipeline pieces).
Proof. intros nel lsps script sizes out j rest rss H E BV F. destruct (session_end _ _ _ _ _ _ _ H E) as (-> & _). now apply converted_pushed_pieces. Qed.
Theorem session_segments : forall nel lsps s1 s2 o1 o2 rss, gives nel lsps s1 o1 -> gives nel lsps s2 o2 -> bom_visible s1 -> bom_visible s2 ->
  segments s1 = segments s2 -> Forall2 (replaced true (char_rep nel lsps)) (segments_read s1) rss -> unguarded_text (pushed_text rss) -> o1 = o2.
Proof.
  intros nel lsps s1 s2 o1 o2 rss (z1 & r1 & j1 & t1 & H1 & E1 & <-) (z2 & r2 & j2 & t2 & H2 & E2 & <-) B1 B2 E F U.
  rewrite (session_pushed _ _ _ _ _ _ _ _ H1 E1 B1 F U). unfold segments_read in F. rewrite E in F. fold (segments_read s2) in F. now rewrite (session_pushed _ _ _ _ _ _ _ _ H2 E2 B2 F U).
Qed.
Theorem session_line_by_line : forall nel lsps s1 s2 o1 o2, gives nel lsps s1 o1 -> gives nel lsps s2 o2 -> bom_visible s1 -> regular s2 ->
  stream_text s1 = stream_text s2 -> settled nel lsps (without_bom (stream_text s1)) -> line_by_line nel lsps (segments_read s1) -> o1 = o2.
Proof.
  intros nel lsps s1 s2 o1 o2 (z1 & r1 & j1 & t1 & H1 & E1 & <-) G2 B1 R2 E ST LB.
  destruct (all_replaced nel lsps (segments_read s1)) as [rss F]. destruct (pushed_lines _ _ _ _ (segments_read_nonnil s1) F LB) as [EP R].
  rewrite segments_read_concat in R by exact B1. pose proof (ST _ R) as U. rewrite E in R. rewrite (gives_made _ _ _ _ _ G2 R2 R U), <- EP.
  apply (session_pushed _ _ _ _ _ _ _ _ H1 E1 B1 F). rewrite EP. unfold made. rewrite final_newline_eq. now apply unguarded_guarded.
Qed.
