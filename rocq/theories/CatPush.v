(** Streams with pushes, one after the other. *)
From Coq Require Import NArith Arith List Bool Lia.
From Verif Require Import Base Ucd Norm Chars TextUtils NormFacts CharFacts SpecText TextFacts PipelineFacts IsoFacts KeepFacts
  Utf8 Utf8Facts Input Output ReadFacts ReadInv ReadSession SpecRead ReadChunk SpecEscape EscapeFacts EscapeRun ReadProps ReadPieces SpecConv ConvFacts DocProps CatProps SpecCat SpecPush PushProps.
Import ListNotations.
Local Open Scope N_scope.
Local Opaque pipeline.

Lemma gives_pushed : forall nel lsps script text rss, gives nel lsps script text -> bom_visible script ->
  Forall2 (replaced true (char_rep nel lsps)) (segments_read script) rss -> settled_segments nel lsps (segments_read script) -> text = pipeline (pushed_text rss).
Proof. intros nel lsps script text rss (sizes & out & j & rest & H & E & <-) BV F S. exact (session_pushed _ _ _ _ _ _ _ _ H E BV F (S _ F)). Qed.
Lemma guarded_cat : forall rs rb, last_opt rs = Some [0xA] -> exists x, guarded rs = x ++ [LF] /\ guarded (rs ++ rb) = x ++ LF :: guard_end (concat rb).
Proof.
  intros rs rb LR. destruct (made_cat rs rb LR) as (x & E1 & E2). exists x. split; [rewrite <- made_line by exact LR; exact E1|].
  unfold made in E2. fold (guarded (rs ++ rb)) in E2. rewrite final_after in E2 by exact LR.
  change (x ++ LF :: guard_end (concat rb) ++ final_newline rb) with (x ++ (LF :: guard_end (concat rb)) ++ final_newline rb) in E2. rewrite app_assoc in E2.
  now apply app_inv_tail in E2.
Qed.
Lemma guarded_starts : forall rb, guarded rb = guard_end (concat rb) /\ starts_ok (concat rb) \/
  guarded rb = CGJ :: guard_end (concat rb) /\ (exists c t, guard_end (concat rb) = c :: t /\ is_assigned c = true) /\ ~ starts_ok (concat rb).
Proof.
  intro rb. unfold guarded, guard_start. destruct (concat rb) as [|c t]; [left; split; [reflexivity|intros ? ? K; discriminate]|].
  destruct (is_basic_text_start c) eqn:EB.
  - left. split; [reflexivity|]. intros ? ? K. now injection K as <- _.
  - right. split; [|split].
    + change (0x34F :: c :: t) with ([0x34F] ++ c :: t). rewrite guard_end_app by discriminate. reflexivity.
    + unfold guard_end. exists c. destruct (last_opt (c :: t)) as [n|]; [destruct (is_basic_text_end n)|]; cbn [app]; eexists; (split; [reflexivity|now apply nonstart_assigned]).
    + intro K. rewrite (K c t eq_refl) in EB. discriminate.
Qed.
Lemma replaced_each : forall nel lsps a b rss, Forall2 (replaced true (char_rep nel lsps)) (a ++ b) rss ->
  exists ra rb, rss = ra ++ rb /\ Forall2 (replaced true (char_rep nel lsps)) a ra /\ Forall2 (replaced true (char_rep nel lsps)) b rb.
Proof. intros nel lsps a b rss F. destruct (Forall2_app_inv_l _ _ F) as (ra & rb & FA & FB & ->). eauto. Qed.

(** the two streams run together *)
Theorem session_cat_pushes : forall nel lsps s1 s2 s3 o1 o2 o3 p a b q, bom_visible s1 -> bom_visible s2 -> bom_visible s3 ->
  gives nel lsps s1 o1 -> gives nel lsps s2 o2 -> gives nel lsps s3 o3 ->
  segments_read s1 = p ++ [a] -> segments_read s2 = b :: q -> segments_read s3 = p ++ (a ++ b) :: q ->
  settled_segments nel lsps (segments_read s1) -> settled_segments nel lsps (segments_read s2) -> ends_line nel lsps a ->
  (o3 = o1 ++ o2 <-> begins_ok nel lsps b) /\ (~ begins_ok nel lsps b -> exists y, o2 = 0x34F :: y /\ o3 = o1 ++ y).
Proof.
  intros nel lsps s1 s2 s3 o1 o2 o3 p a b q B1 B2 B3 G1 G2 G3 E1 E2 E3 S1 S2 (x & ra & EX & RA & LR).
  destruct (all_replaced nel lsps p) as [rp FP]. destruct (all_replaced nel lsps q) as [rq FQ]. destruct (replaced_total nel lsps b) as [rb RB].
  assert (F1 : Forall2 (replaced true (char_rep nel lsps)) (segments_read s1) (rp ++ [ra])) by (rewrite E1; apply Forall2_app; auto).
  assert (F2 : Forall2 (replaced true (char_rep nel lsps)) (segments_read s2) (rb :: rq)) by (rewrite E2; auto).
  assert (F3 : Forall2 (replaced true (char_rep nel lsps)) (segments_read s3) (rp ++ (ra ++ rb) :: rq)).
  { rewrite E3. apply Forall2_app; [exact FP|]. constructor; [|exact FQ]. apply replaced_app; eauto. }
  destruct (guarded_cat ra rb LR) as (y & GA & GC). set (X := concat (map guarded rp) ++ y).
  set (R := guard_end (concat rb) ++ concat (map guarded rq) ++ final_newline (rb ++ concat rq)).
  assert (T1 : pushed_text (rp ++ [ra]) = X ++ [LF]).
  { unfold pushed_text, X. rewrite map_app, !concat_app. cbn [map concat]. rewrite !app_nil_r, GA.
    replace (final_newline (concat rp ++ ra)) with (@nil N); [now rewrite app_nil_r, <- app_assoc|].
    destruct ra as [|r ra] using rev_ind; [discriminate|]. rewrite last_opt_snoc in LR. injection LR as ->. unfold final_newline. now rewrite app_assoc, last_opt_snoc. }
  assert (T3 : pushed_text (rp ++ (ra ++ rb) :: rq) = (X ++ [LF]) ++ R).
  { unfold pushed_text, X, R. rewrite map_app, !concat_app. cbn [map concat]. rewrite GC.
    replace (final_newline (concat rp ++ (ra ++ rb) ++ concat rq)) with (final_newline (rb ++ concat rq)).
    - rewrite <- !app_assoc. cbn [app]. rewrite <- ?app_assoc. reflexivity.
    - symmetry. rewrite <- !app_assoc, app_assoc. apply final_after. destruct ra as [|r ra] using rev_ind; [discriminate|]. rewrite last_opt_snoc in LR. injection LR as ->. now rewrite app_assoc, last_opt_snoc. }
  assert (T2 : (pushed_text (rb :: rq) = R /\ starts_ok (concat rb)) \/ (pushed_text (rb :: rq) = CGJ :: R /\ hd_assigned R /\ ~ starts_ok (concat rb))).
  { unfold pushed_text, R. cbn [map concat]. destruct (guarded_starts rb) as [[-> S]|(-> & (c & t & E & A) & S)]; [left|right].
    - split; [now rewrite <- app_assoc|exact S].
    - split; [|split; [|exact S]]; [now rewrite <- app_assoc|]. rewrite E. intros c' t' K. cbn in K. injection K as <- _. exact A. }
  assert (U1 := S1 _ F1). assert (U2 := S2 _ F2). rewrite T1 in U1.
  assert (UR : unguarded_text R).
  { destruct T2 as [[T2 _]|(T2 & _)]; rewrite T2 in U2; [exact U2|]. exact (proj2 (unguarded_parts [CGJ] R U2)). }
  assert (U3 : unguarded_text (pushed_text (rp ++ (ra ++ rb) :: rq))) by (rewrite T3; now apply unguarded_cat).
  destruct G3 as (z & out & j & rest & H & EE & <-). rewrite (session_pushed _ _ _ _ _ _ _ _ H EE B3 F3 U3), T3.
  rewrite (gives_pushed _ _ _ _ _ G1 B1 F1 S1), T1, (gives_pushed _ _ _ _ _ G2 B2 F2 S2).
  rewrite pipeline_join; [|now left|intro K; discriminate K].
  assert (B : begins_ok nel lsps b <-> starts_ok (concat rb)).
  { split; [intro K; exact (K _ RB)|]. intros K rb' RB'. now rewrite (replaced_det _ _ _ _ RB' _ RB). }
  rewrite B. destruct T2 as [[-> S]|(-> & HA & S)]; [split; [tauto|intro K; contradiction]|].
  change (CGJ :: R) with (([] ++ [CGJ]) ++ R). rewrite (pipeline_join [] CGJ R) by (try (now right); intros _; exact HA).
  rewrite (pipeline_quick ([] ++ [CGJ])) by (vm_compute; reflexivity). cbn [app].
  split; [split; [|contradiction]|intros _; eexists; split; reflexivity]. intro K. apply app_inv_head in K.
  exfalso. apply (f_equal (@length N)) in K. cbn in K. clear - K. lia.
Qed.

(** a push between the two *)
Lemma lines_end : forall rss, last_opt (concat rss) = Some [0xA] -> exists x, concat (map guarded rss) = x ++ [LF].
Proof.
  induction rss as [|rs rss IH] using rev_ind; [discriminate|]. rewrite map_app, !concat_app. cbn [map concat]. rewrite !app_nil_r. intro L.
  destruct rs as [|r rs] using rev_ind.
  - rewrite app_nil_r in L. change (guarded []) with (@nil N). rewrite app_nil_r. now apply IH.
  - clear IHrs IH. rewrite app_assoc, last_opt_snoc in L. injection L as ->.
    destruct (guarded_cat (rs ++ [[0xA]]) [] (last_opt_snoc _ _ _)) as (x & -> & _). exists (concat (map guarded rss) ++ x). now rewrite <- app_assoc.
Qed.
Theorem session_cat_push_between : forall nel lsps s1 s2 s3 o1 o2 o3, bom_visible s1 -> bom_visible s2 -> bom_visible s3 ->
  gives nel lsps s1 o1 -> gives nel lsps s2 o2 -> gives nel lsps s3 o3 -> segments_read s3 = segments_read s1 ++ segments_read s2 ->
  settled_segments nel lsps (segments_read s1) -> settled_segments nel lsps (segments_read s2) ->
  whole_lines nel lsps (segments_read s1) -> o3 = o1 ++ o2.
Proof.
  intros nel lsps s1 s2 s3 o1 o2 o3 B1 B2 B3 G1 G2 G3 E3 S1 S2 WL.
  destruct (all_replaced nel lsps (segments_read s1)) as [r1 F1]. destruct (all_replaced nel lsps (segments_read s2)) as [r2 F2].
  assert (F3 : Forall2 (replaced true (char_rep nel lsps)) (segments_read s3) (r1 ++ r2)) by (rewrite E3; now apply Forall2_app).
  assert (U1 := S1 _ F1). assert (U2 := S2 _ F2).
  assert (C : (pushed_text r1 = [] /\ pushed_text (r1 ++ r2) = pushed_text r2) \/
    exists x, pushed_text r1 = x ++ [LF] /\ pushed_text (r1 ++ r2) = (x ++ [LF]) ++ pushed_text r2).
  { unfold pushed_text. rewrite map_app, !concat_app. destruct (WL _ F1) as [W|W].
    - left. rewrite W. assert (Z : concat (map guarded r1) = []).
      { clear - W. induction r1 as [|r r1 IH]; [reflexivity|]. cbn in W |- *. apply app_eq_nil in W. destruct W as [-> W]. cbn. now apply IH. }
      rewrite Z. auto.
    - right. destruct (lines_end _ W) as [x E]. exists x. rewrite E, final_after by exact W. split; [|now rewrite <- !app_assoc].
      unfold final_newline. rewrite W. cbn [list_eqb]. change (0xA =? 0xA) with true. apply app_nil_r. }
  assert (U3 : unguarded_text (pushed_text (r1 ++ r2))).
  { destruct C as [[_ ->]|(x & E & ->)]; [exact U2|]. rewrite E in U1. now apply unguarded_cat. }
  destruct G3 as (z & out & j & rest & H & EE & <-). rewrite (session_pushed _ _ _ _ _ _ _ _ H EE B3 F3 U3).
  rewrite (gives_pushed _ _ _ _ _ G1 B1 F1 S1), (gives_pushed _ _ _ _ _ G2 B2 F2 S2).
  destruct C as [[-> ->]|(x & -> & ->)]; [now rewrite pipeline_nil|]. apply pipeline_join; [now left|intro K; discriminate K].
Qed.
