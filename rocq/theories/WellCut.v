(** Line ends and concatenation, with nothing assumed about unassigned characters but how
    the reads are cut. *)
From Coq Require Import NArith Arith List Bool Lia.
From Verif Require Import Base Ucd Norm Chars TextUtils NormFacts CharFacts SpecText TextFacts PipelineFacts IsoFacts KeepFacts
  Utf8 Utf8Facts Input Output ReadFacts ReadInv ReadSession SpecRead ReadChunk SpecEscape EscapeFacts EscapeRun ReadProps ReadPieces SpecConv ConvFacts DocProps CatProps SpecCat SpecPush PushProps CatPush
  SpecNewlines NewlineProps SpecGap GapProps SpecCut CutProps SpecAsk SpecCertain CertainFacts CertainProps SpecWellCut.
Import ListNotations.
Local Open Scope N_scope.
Local Opaque pipeline.

Lemma all_det : forall can rep segs r r', Forall2 (replaced can rep) segs r -> Forall2 (replaced can rep) segs r' -> r = r'.
Proof. intros can rep segs r r' H. revert r'. induction H as [|s x segs r A H IH]; intros r' K; inversion K; subst; [reflexivity|]. f_equal; [eapply replaced_det; eauto|now apply IH]. Qed.
Lemma gives_well : forall nel lsps s o rss, gives nel lsps s o -> bom_visible s -> Forall2 (replaced true (char_rep nel lsps)) (segments_read s) rss ->
  (o = pipeline (pushed_text rss) <-> well_cut nel lsps s).
Proof.
  intros nel lsps s o rss (z & out & j & rest & H & E & <-) B F. rewrite coded_pipeline.
  destruct (session_cut_badly nel lsps s z out j rest rss H E B F) as [I _]. rewrite I. split.
  - intros C rss' F'. assert (EQ : rss' = rss) by exact (all_det _ _ _ _ _ F' F). now rewrite EQ.
  - intros W. exact (W _ F).
Qed.

Theorem newlines_exact : forall nel lsps s1 s2 o1 o2, gives nel lsps s1 o1 -> gives nel lsps s2 o2 -> bom_visible s1 -> bom_visible s2 ->
  Forall2 same_lines (segments_read s1) (segments_read s2) -> Forall2 whole_ends (segments_read s1) (segments_read s2) ->
  well_cut nel lsps s1 -> (o1 = o2 <-> well_cut nel lsps s2).
Proof.
  intros nel lsps s1 s2 o1 o2 G1 G2 B1 B2 S W C1.
  destruct (all_replaced nel lsps (segments_read s1)) as [r1 F1]. destruct (all_replaced nel lsps (segments_read s2)) as [r2 F2].
  pose proof (same_pushed _ _ _ _ _ _ S W F1 F2) as EQ. apply (gives_well _ _ _ _ _ G1 B1 F1) in C1. rewrite <- (gives_well _ _ _ _ _ G2 B2 F2), C1, EQ. split; congruence.
Qed.

Theorem cat_exact : forall nel lsps s1 s2 s3 o1 o2 o3 p a b q, bom_visible s1 -> bom_visible s2 -> bom_visible s3 ->
  gives nel lsps s1 o1 -> gives nel lsps s2 o2 -> gives nel lsps s3 o3 ->
  segments_read s1 = p ++ [a] -> segments_read s2 = b :: q -> segments_read s3 = p ++ (a ++ b) :: q ->
  well_cut nel lsps s1 -> well_cut nel lsps s2 -> ends_line nel lsps a ->
  (begins_ok nel lsps b -> (o3 = o1 ++ o2 <-> well_cut nel lsps s3)) /\
  (~ begins_ok nel lsps b -> exists y, o2 = 0x34F :: y /\ (o3 = o1 ++ y <-> well_cut nel lsps s3)).
Proof.
  intros nel lsps s1 s2 s3 o1 o2 o3 p a b q B1 B2 B3 G1 G2 G3 E1 E2 E3 C1 C2 (x & ra & EX & RA & LR).
  destruct (all_replaced nel lsps p) as [rp FP]. destruct (all_replaced nel lsps q) as [rq FQ]. destruct (replaced_total nel lsps b) as [rb RB].
  assert (F1 : Forall2 (replaced true (char_rep nel lsps)) (segments_read s1) (rp ++ [ra])) by (rewrite E1; apply Forall2_app; auto).
  assert (F2 : Forall2 (replaced true (char_rep nel lsps)) (segments_read s2) (rb :: rq)) by (rewrite E2; auto).
  assert (F3 : Forall2 (replaced true (char_rep nel lsps)) (segments_read s3) (rp ++ (ra ++ rb) :: rq)).
  { rewrite E3. apply Forall2_app; [exact FP|]. constructor; [|exact FQ]. apply replaced_app; eauto. }
  destruct (guarded_cat ra rb LR) as (y & GA & GC). set (X := concat (map guarded rp) ++ y).
  set (R := guard_end (concat rb) ++ concat (map guarded rq) ++ final_newline (rb ++ concat rq)).
  assert (T1 : pushed_text (rp ++ [ra]) = X ++ [LF]).
  { unfold pushed_text, X. rewrite map_app, !concat_app. cbn [map concat]. rewrite !app_nil_r, GA.
    replace (final_newline (concat rp ++ ra)) with (@nil N); [now rewrite app_nil_r, <- app_assoc|].
    destruct ra as [|r ra] using rev_ind; [discriminate|]. rewrite last_opt_snoc in LR. injection LR as ->. unfold final_newline. now rewrite app_assoc, last_opt_snoc. }
  assert (T3 : pushed_text (rp ++ (ra ++ rb) :: rq) = (X ++ [LF]) ++ R).
  { unfold pushed_text, X, R. rewrite map_app, !concat_app. cbn [map concat]. rewrite GC.
    replace (final_newline (concat rp ++ (ra ++ rb) ++ concat rq)) with (final_newline (rb ++ concat rq)).
    - rewrite <- !app_assoc. cbn [app]. rewrite <- ?app_assoc. reflexivity.
    - symmetry. rewrite <- !app_assoc, app_assoc. apply final_after. destruct ra as [|r ra] using rev_ind; [discriminate|]. rewrite last_opt_snoc in LR. injection LR as ->. now rewrite app_assoc, last_opt_snoc. }
  assert (T2 : (pushed_text (rb :: rq) = R /\ starts_ok (concat rb)) \/ (pushed_text (rb :: rq) = CGJ :: R /\ hd_assigned R /\ ~ starts_ok (concat rb))).
  { unfold pushed_text, R. cbn [map concat]. destruct (guarded_starts rb) as [[-> S]|(-> & (c & t & E & A) & S)]; [left|right].
    - split; [now rewrite <- app_assoc|exact S].
    - split; [|split; [|exact S]]; [now rewrite <- app_assoc|]. rewrite E. intros c' t' K. cbn in K. injection K as <- _. exact A. }
  apply (gives_well _ _ _ _ _ G1 B1 F1) in C1. apply (gives_well _ _ _ _ _ G2 B2 F2) in C2. pose proof (gives_well _ _ _ _ _ G3 B3 F3) as C3. rewrite C1, C2, T1. rewrite T3 in C3.
  rewrite pipeline_join in C3; [|now left|intro K; discriminate K].
  assert (B : begins_ok nel lsps b <-> starts_ok (concat rb)).
  { split; [intro K; exact (K _ RB)|]. intros K rb' RB'. now rewrite (replaced_det _ _ _ _ RB' _ RB). }
  rewrite B. destruct T2 as [[-> S]|(-> & HA & S)]; [split; [tauto|intro K; contradiction]|].
  change (CGJ :: R) with (([] ++ [CGJ]) ++ R). rewrite (pipeline_join [] CGJ R) by (try (now right); intros _; exact HA).
  rewrite (pipeline_quick ([] ++ [CGJ])) by (vm_compute; reflexivity). cbn [app].
  split; [contradiction|]. intros _. eexists. split; [reflexivity|exact C3].
Qed.

Theorem cat_push_exact : forall nel lsps s1 s2 s3 o1 o2 o3, bom_visible s1 -> bom_visible s2 -> bom_visible s3 ->
  gives nel lsps s1 o1 -> gives nel lsps s2 o2 -> gives nel lsps s3 o3 -> segments_read s3 = segments_read s1 ++ segments_read s2 ->
  well_cut nel lsps s1 -> well_cut nel lsps s2 -> whole_lines nel lsps (segments_read s1) -> (o3 = o1 ++ o2 <-> well_cut nel lsps s3).
Proof.
  intros nel lsps s1 s2 s3 o1 o2 o3 B1 B2 B3 G1 G2 G3 E3 C1 C2 WL.
  destruct (all_replaced nel lsps (segments_read s1)) as [r1 F1]. destruct (all_replaced nel lsps (segments_read s2)) as [r2 F2].
  assert (F3 : Forall2 (replaced true (char_rep nel lsps)) (segments_read s3) (r1 ++ r2)) by (rewrite E3; now apply Forall2_app).
  assert (C : (pushed_text r1 = [] /\ pushed_text (r1 ++ r2) = pushed_text r2) \/
    exists x, pushed_text r1 = x ++ [LF] /\ pushed_text (r1 ++ r2) = (x ++ [LF]) ++ pushed_text r2).
  { unfold pushed_text. rewrite map_app, !concat_app. destruct (WL _ F1) as [W|W].
    - left. rewrite W. assert (Z : concat (map guarded r1) = []).
      { clear - W. induction r1 as [|r r1 IH]; [reflexivity|]. cbn in W |- *. apply app_eq_nil in W. destruct W as [-> W]. cbn. now apply IH. }
      rewrite Z. auto.
    - right. destruct (lines_end _ W) as [x E]. exists x. rewrite E, final_after by exact W. split; [|now rewrite <- !app_assoc].
      unfold final_newline. rewrite W. cbn [list_eqb]. change (0xA =? 0xA) with true. apply app_nil_r. }
  apply (gives_well _ _ _ _ _ G1 B1 F1) in C1. apply (gives_well _ _ _ _ _ G2 B2 F2) in C2. rewrite <- (gives_well _ _ _ _ _ G3 B3 F3), C1, C2.
  destruct C as [[-> ->]|(x & -> & ->)]; [now rewrite pipeline_nil|]. rewrite (pipeline_join x LF) by (try (now left); intro K; discriminate K). reflexivity.
Qed.

Theorem settled_well : forall nel lsps s, settled_segments nel lsps (segments_read s) -> well_cut nel lsps s.
Proof.
  intros nel lsps s S rss F (x & T & R & _ & _ & E & a & d & c & b & -> & _ & _ & EC & U). pose proof (S _ F) as G.
  rewrite <- app_assoc in E. cbn [app] in E. rewrite EC in E. rewrite (G a c b E) in U. discriminate.
Qed.
Theorem one_read_well : forall nel lsps cs, well_cut nel lsps [Chunk cs End].
Proof. intros nel lsps cs rss _ (x & _ & _ & [] & _). Qed.
