(** Reading a concatenation of texts. *)
From Coq Require Import NArith Arith List Bool Lia ZifyBool ZifyNat ZifyN.
From Verif Require Import Base Ucd UcdTables Norm Chars TextTables TextUtils UcdFacts NormFacts CharFacts DocTable SpecText TextFacts PipelineFacts DocFacts IsoFacts
  Utf8 Utf8Facts Input Output ReadFacts ReadInv ReadSession SpecRead ReadChunk SpecEscape EscapeFacts EscapeRun ReadProps KeepFacts ReadPieces SpecConv ConvFacts DocProps.
Import ListNotations.
Local Open Scope N_scope.
Arguments N.add : simpl never.
Arguments N.leb : simpl never.
Arguments N.ltb : simpl never.
Arguments N.eqb : simpl never.
Local Opaque pipeline.

(** A line end inside a sequence of the table: the sequence is an OSC. *)
Lemma last_not : forall (p q m : list N) x, (forall c, In c m -> c <> x) -> m = p ++ x :: q -> False.
Proof. intros p q m x H ->. apply (H x); [apply in_or_app; right; now left|reflexivity]. Qed.
Lemma no_mid : forall (p q m l : list N) x, (forall c, In c m -> c <> x) -> m ++ l = p ++ x :: q -> exists p', p = m ++ p' /\ l = p' ++ x :: q.
Proof.
  induction p as [|y p IH]; intros q m l x H E.
  - destruct m as [|z m]; [exists []; auto|]. cbn in E. injection E as E1 _. exfalso. apply (H z); [now left|exact E1].
  - destruct m as [|z m]; [exists (y :: p); auto|]. cbn in E. injection E as -> E.
    destruct (IH q m l x) as (p' & -> & ->); [intros c HC; apply H; now right|exact E|]. now exists p'.
Qed.
Lemma run_not : forall x y e, run_of x e -> x <> y -> forall c, In c e -> c <> y.
Proof. intros x y e [_ F] N c I. rewrite Forall_forall in F. rewrite (F c I). exact N. Qed.
Lemma row_inner : forall can rep m r p q, row can rep m r -> m = p ++ 0xA :: q -> q <> [] -> row can rep (p ++ [0xA]) [].
Proof.
  intros can rep m r p q H E Q.
  assert (S1 : forall c x y : N, [c] = p ++ x :: q -> False) by (intros c x y K; destruct p as [|? [|? ?]]; try discriminate; cbn in K; injection K as _ K; now subst q).
  assert (RL : forall f l, run_of 0xC f -> f ++ l = p ++ 0xA :: q -> (length l <= 1)%nat -> False).
  { intros f l R K L. destruct (no_mid p q f l 0xA) as (p' & -> & ->); [apply (run_not 0xC); [exact R|discriminate]|exact K|].
    rewrite app_length in L. cbn in L. destruct q; [congruence|]. cbn in L. lia. }
  assert (EL : forall e l, run_of 0x1B e -> e ++ l = p ++ 0xA :: q -> exists p', p = e ++ p' /\ l = p' ++ 0xA :: q).
  { intros e l R K. apply no_mid; [apply (run_not 0x1B); [exact R|discriminate]|exact K]. }
  assert (CO : forall (b l : list N), 0x5D :: b ++ l = p ++ 0xA :: q -> True) by trivial.
  destruct H as [| |f F|f F|f F|f F|e F|e c F L|e pp F P|e pp c F P FI|e b F B|e b c F B OE|e c F FI|e F|c].
  - destruct p as [|? [|? [|? ?]]]; try discriminate; cbn in E; injection E as; now subst q.
  - destruct (S1 _ _ 0 E).
  - destruct (no_mid p q f [0xD; 0xA] 0xA) as (p' & -> & K); [apply (run_not 0xC); [exact F|discriminate]|exact E|].
    destruct p' as [|? [|? [|? ?]]]; try discriminate; cbn in K; injection K as; now subst q.
  - exfalso. apply (RL _ _ F E). cbn. lia.
  - exfalso. apply (RL _ _ F E). cbn. lia.
  - exfalso. apply (RL _ [] F); [now rewrite app_nil_r|cbn; lia].
  - destruct (EL _ _ F E) as (p' & -> & K). destruct p' as [|? [|? [|? ?]]]; try discriminate.
  - destruct (EL _ _ F E) as (p' & -> & K). destruct p' as [|? [|? [|? [|? ?]]]]; try discriminate. cbn in K. injection K as; now subst q.
  - destruct (EL _ _ F E) as (p' & -> & K). destruct p' as [|? p']; [discriminate|]. cbn in K. injection K as <- K. exfalso.
    rewrite Forall_forall in P. assert (IN : In 0xA pp) by (rewrite K; apply in_or_app; right; now left). apply P in IN. unfold parameter in IN. lia.
  - destruct (EL _ _ F E) as (p' & -> & K). destruct p' as [|? p']; [discriminate|]. cbn in K. injection K as <- K. exfalso.
    destruct (no_mid p' q pp [c] 0xA) as (p2 & -> & K2); [|exact K|].
    { intros x IX ->. rewrite Forall_forall in P. apply P in IX. unfold parameter in IX. lia. }
    destruct p2 as [|? [|? ?]]; try discriminate; cbn in K2; injection K2 as; now subst q.
  - destruct (EL _ _ F E) as (p' & -> & K). destruct p' as [|? p']; [discriminate|]. cbn in K. injection K as <- K. subst b.
    rewrite <- app_assoc. cbn [app]. apply row_osc; [exact F|]. apply Forall_app in B as [B1 B2]. apply Forall_app. split; [exact B1|].
    inversion B2; subst. constructor; auto.
  - destruct (EL _ _ F E) as (p' & -> & K). destruct p' as [|? p']; [discriminate|]. cbn in K. injection K as <- K.
    rewrite <- app_assoc. cbn [app]. apply row_osc; [exact F|]. apply Forall_forall. intros x IX.
    assert (IN : In x (b ++ [c]) /\ In x b).
    { destruct q as [|z q] using rev_ind; [congruence|]. change (p' ++ 0xA :: q ++ [z]) with (p' ++ (0xA :: q) ++ [z]) in K. rewrite app_assoc in K. apply app_inj_tail in K as [-> ->].
      assert (In x (p' ++ 0xA :: q)). { apply in_app_or in IX as [IX|[<-|[]]]; apply in_or_app; [now left|right; now left]. }
      split; [apply in_or_app; now left|assumption]. }
    rewrite Forall_forall in B. now apply B.
  - destruct (EL _ _ F E) as (p' & -> & K). destruct p' as [|? [|? ?]]; try discriminate; cbn in K; injection K as; now subst q.
  - destruct (EL e [] F) as (p' & -> & K); [now rewrite app_nil_r|]. destruct p'; discriminate.
  - destruct (S1 _ _ 0 E).
Qed.

(** The cut of a concatenation, when the first text ends with a line end that
    belongs to no longer sequence. *)
Lemma app_longer : forall A (a b c d : list A), a ++ b = c ++ d -> (length a < length c)%nat -> exists e, e <> [] /\ c = a ++ e /\ b = e ++ d.
Proof.
  induction a as [|x a IH]; intros b c d E L.
  - exists c. destruct c; [cbn in L; lia|]. repeat split; [discriminate|exact E].
  - destruct c as [|y c]; [cbn in L; lia|]. cbn in E. injection E as -> E. cbn in L. destruct (IH b c d E) as (e & N & -> & ->); [lia|]. exists e. auto.
Qed.
Lemma replaced_nil_inv : forall can rep rs, replaced can rep [] rs -> rs = [].
Proof. intros can rep rs H. inversion H as [|m r rest rs' R _ _ E]; [reflexivity|]. apply app_eq_nil in E as [-> _]. now apply row_nonnil in R. Qed.
Lemma replaced_app : forall can rep a rs b rb, replaced can rep a rs -> (exists x, a = x ++ [0xA]) -> last_opt rs = Some [0xA] ->
  replaced can rep b rb -> replaced can rep (a ++ b) (rs ++ rb).
Proof.
  intros can rep a rs b rb H. induction H as [|m r rest rs R L T IH]; intros [x EX] LR HB; [discriminate|].
  cbn [app]. rewrite <- app_assoc. constructor; [exact R| |].
  - intros m' r' rest' R' E. destruct (Nat.le_gt_cases (length m') (length (m ++ rest))) as [LE|GT].
    + destruct (Nat.eq_dec (length m') (length (m ++ rest))) as [EQ|NE].
      * apply (L m' r' [] R'). rewrite app_assoc in E. apply app_prefix_len in E as [<- _]; [now rewrite app_nil_r|now rewrite EQ].
      * rewrite app_assoc in E. symmetry in E. apply app_longer in E as (e & _ & E & _); [|lia]. exact (L m' r' e R' E).
    + exfalso. rewrite app_assoc in E. destruct (app_longer _ _ _ _ _ E GT) as (e & NE & E1 & _). rewrite EX in E1. rewrite <- app_assoc in E1. cbn [app] in E1.
      pose proof (row_inner _ _ _ _ _ _ R' E1 NE) as RO. rewrite <- EX in RO.
      pose proof (L _ _ [] RO (eq_sym (app_nil_r _))) as LL. rewrite app_length in LL.
      destruct rest; [|cbn in LL; lia]. rewrite app_nil_r in RO. pose proof (replaced_nil_inv _ _ _ T) as ->. cbn in LR. injection LR as ->.
      pose proof (row_det _ _ _ _ R) as D1. pose proof (row_det _ _ _ _ RO) as D2. congruence.
  - destruct rest as [|y rest].
    + pose proof (replaced_nil_inv _ _ _ T) as ->. exact HB.
    + apply IH; [| |exact HB].
      * destruct x as [|? x] using rev_ind.
        -- apply (f_equal (@length N)) in EX. rewrite app_length in EX. cbn in EX. apply row_nonnil in R. destruct m; [congruence|]. cbn in EX. lia.
        -- clear IHx. destruct rest as [|z rest'] using rev_ind.
           ++ change [y] with ([] ++ [y]) in EX. rewrite app_nil_l in EX. apply app_inj_tail in EX as [_ ->]. now exists [].
           ++ rewrite app_comm_cons, app_assoc in EX. apply app_inj_tail in EX as [_ ->]. exists (y :: rest'). reflexivity.
      * destruct rs; [|exact LR]. inversion T as [|? ? ? ? R2 _ _ E2].
Qed.

(** What the reader makes of the replaced sequences. *)
Definition made (rs : list (list N)) : list N := guard_end (guard_start (concat rs)) ++ final_newline rs.
Lemma guard_end_app : forall a b, b <> [] -> guard_end (a ++ b) = a ++ guard_end b.
Proof.
  intros a b N. unfold guard_end. rewrite ReadFacts.last_opt_app. destruct b as [|c b] using rev_ind; [congruence|]. rewrite last_opt_snoc.
  destruct (is_basic_text_end c); [reflexivity|]. now rewrite <- !app_assoc.
Qed.
Lemma end_LF : is_basic_text_end 0xA = true.
Proof. vm_compute. reflexivity. Qed.
Lemma made_cat : forall rs rb, last_opt rs = Some [0xA] ->
  exists x, made rs = x ++ [LF] /\ made (rs ++ rb) = x ++ LF :: guard_end (concat rb) ++ final_newline rb.
Proof.
  intros rs rb LR. destruct rs as [|r rs] using rev_ind; [discriminate|]. clear IHrs. rewrite last_opt_snoc in LR. injection LR as ->.
  assert (G : exists x, forall y, guard_start (concat (rs ++ [[0xA]]) ++ y) = x ++ LF :: y).
  { rewrite concat_app. cbn [concat]. rewrite app_nil_r. destruct (concat rs) as [|c t]; [exists []; intro y; reflexivity|].
    cbn [app guard_start]. exists (if is_basic_text_start c then c :: t else CGJ :: c :: t). intro y.
    destruct (is_basic_text_start c); cbn [app]; rewrite <- app_assoc; reflexivity. }
  destruct G as [x G]. exists x. unfold made. split.
  - pose proof (G []) as G0. rewrite app_nil_r in G0. rewrite G0. unfold final_newline. rewrite last_opt_snoc. cbn [list_eqb]. change (0xA =? 0xA) with true. cbn [andb]. rewrite app_nil_r.
    unfold guard_end. rewrite last_opt_snoc. change LF with 0xA. now rewrite end_LF.
  - rewrite concat_app, G. change (x ++ LF :: concat rb) with (x ++ [LF] ++ concat rb).
    destruct rb as [|r0 rb] using rev_ind.
    + cbn [concat]. rewrite !app_nil_r. unfold final_newline. rewrite last_opt_snoc. cbn [list_eqb]. change (0xA =? 0xA) with true. cbn [andb last_opt guard_end].
      rewrite app_nil_r. unfold guard_end. rewrite last_opt_snoc. change LF with 0xA. now rewrite end_LF.
    + clear IHrb. assert (FN : final_newline ((rs ++ [[0xA]]) ++ rb ++ [r0]) = final_newline (rb ++ [r0])).
      { unfold final_newline. now rewrite app_assoc, !last_opt_snoc. }
      rewrite FN. destruct (concat (rb ++ [r0])) as [|c t] eqn:EC.
      * rewrite app_nil_r. unfold guard_end at 1. rewrite last_opt_snoc. change LF with 0xA. rewrite end_LF. cbn [guard_end last_opt app]. now rewrite <- app_assoc.
      * rewrite app_assoc, guard_end_app by discriminate. now rewrite <- !app_assoc.
Qed.
Lemma made_starts : forall rb, made rb = guard_end (concat rb) ++ final_newline rb /\ starts_ok (concat rb) \/
  made rb = CGJ :: guard_end (concat rb) ++ final_newline rb /\ hd_assigned (guard_end (concat rb) ++ final_newline rb) /\ ~ starts_ok (concat rb).
Proof.
  intro rb. unfold made, guard_start. destruct (concat rb) as [|c t]; [left; split; [reflexivity|intros ? ? K; discriminate]|].
  destruct (is_basic_text_start c) eqn:EB.
  - left. split; [reflexivity|]. intros ? ? K. now injection K as <- _.
  - right. split; [|split].
    + change (0x34F :: c :: t) with ([0x34F] ++ c :: t). rewrite guard_end_app by discriminate. reflexivity.
    + intros x u K. unfold guard_end in K. destruct (last_opt (c :: t)); [destruct (is_basic_text_end n)|]; cbn in K; injection K as <- _; now apply nonstart_assigned.
    + intro K. rewrite (K c t eq_refl) in EB. discriminate.
Qed.

Theorem concatenated : forall rs rb, last_opt rs = Some [0xA] ->
  (starts_ok (concat rb) /\ pipeline (made (rs ++ rb)) = pipeline (made rs) ++ pipeline (made rb)) \/
  (~ starts_ok (concat rb) /\ exists y, pipeline (made rb) = 0x34F :: y /\ pipeline (made (rs ++ rb)) = pipeline (made rs) ++ y).
Proof.
  intros rs rb LR. destruct (made_cat rs rb LR) as (x & -> & ->).
  change (x ++ LF :: guard_end (concat rb) ++ final_newline rb) with (x ++ [LF] ++ guard_end (concat rb) ++ final_newline rb). rewrite app_assoc.
  rewrite pipeline_join; [|now left|intro K; discriminate K].
  destruct (made_starts rb) as [[-> S]|(-> & HA & S)]; [left; auto|right]. split; [exact S|]. eexists. split; [|reflexivity].
  change (CGJ :: guard_end (concat rb) ++ final_newline rb) with (([] ++ [CGJ]) ++ guard_end (concat rb) ++ final_newline rb).
  rewrite pipeline_join; [|now right|intros _; exact HA]. rewrite (pipeline_quick ([] ++ [CGJ])) by (vm_compute; reflexivity). reflexivity.
Qed.

(** Sessions. *)
Lemma unguarded_cat : forall a b, unguarded_text (a ++ [LF]) -> unguarded_text b -> unguarded_text ((a ++ [LF]) ++ b).
Proof.
  intros a b UA UB x c y E. destruct (Nat.le_gt_cases (length (x ++ [0x34F; c])) (length (a ++ [LF]))) as [L|G].
  - change (x ++ 0x34F :: c :: y) with (x ++ [0x34F; c] ++ y) in E. rewrite (app_assoc x) in E. symmetry in E.
    destruct (Nat.eq_dec (length (x ++ [0x34F; c])) (length (a ++ [LF]))) as [Q|Q].
    + apply app_prefix_len in E as [E _]; [|exact Q]. exact (UA x c [] (eq_sym E)).
    + apply app_longer in E as (e & _ & E & _); [|lia]. rewrite <- app_assoc in E. exact (UA x c e E).
  - destruct (Nat.le_gt_cases (length (a ++ [LF])) (length x)) as [L2|G2].
    + destruct (Nat.eq_dec (length (a ++ [LF])) (length x)) as [Q|Q].
      * apply app_prefix_len in E as [_ E]; [|exact Q]. exact (UB [] c y E).
      * apply app_longer in E as (e & _ & _ & E); [|lia]. exact (UB e c y E).
    + assert (LX : length x = length a) by (rewrite !app_length in *; cbn in *; lia).
      rewrite <- app_assoc in E. symmetry in E. apply app_prefix_len in E as [_ E]; [|exact LX]. cbn in E. injection E as E _. discriminate.
Qed.
Lemma without_bom_cat : forall a x b, without_bom a = x ++ [0xA] -> without_bom (a ++ b) = without_bom a ++ b.
Proof. intros [|c a] x b E; [destruct x; discriminate|]. cbn in *. now destruct (c =? 0xFEFF). Qed.
Lemma without_bom_none : forall b, (forall t, b <> 0xFEFF :: t) -> without_bom b = b.
Proof. intros [|c b] H; [reflexivity|]. cbn. destruct (N.eqb_spec c 0xFEFF); [|reflexivity]. subst. now destruct (H b). Qed.

From Verif Require Import SpecCat.
Lemma gives_made : forall nel lsps script text rs, gives nel lsps script text -> regular script ->
  replaced true (char_rep nel lsps) (without_bom (stream_text script)) rs -> unguarded_text (concat rs) -> text = pipeline (made rs).
Proof.
  intros nel lsps script text rs (sizes & out & j & rest & H & E & <-) [NP BV] R U.
  rewrite (session_conversion _ _ _ _ _ _ _ _ H E NP BV R U). unfold made. now rewrite final_newline_eq.
Qed.
Lemma unguarded_parts : forall a b, unguarded_text (a ++ b) -> unguarded_text a /\ unguarded_text b.
Proof.
  intros a b U. split; intros x c y ->.
  - apply (U x c (y ++ b)). now rewrite <- app_assoc.
  - apply (U (a ++ x) c y). now rewrite <- app_assoc.
Qed.
Theorem session_cat : forall nel lsps s1 s2 s3 o1 o2 o3, regular s1 -> regular s2 -> regular s3 ->
  gives nel lsps s1 o1 -> gives nel lsps s2 o2 -> gives nel lsps s3 o3 ->
  stream_text s3 = stream_text s1 ++ stream_text s2 -> settled nel lsps (without_bom (stream_text s3)) ->
  ends_line nel lsps (without_bom (stream_text s1)) -> (forall t, stream_text s2 <> 0xFEFF :: t) ->
  (o3 = o1 ++ o2 <-> begins_ok nel lsps (stream_text s2)) /\
  (~ begins_ok nel lsps (stream_text s2) -> exists y, o2 = 0x34F :: y /\ o3 = o1 ++ y).
Proof.
  intros nel lsps s1 s2 s3 o1 o2 o3 R1 R2 R3 G1 G2 G3 E3 ST (x & rs & EX & RS & LR) NB.
  destruct (replaced_total nel lsps (stream_text s2)) as [rb RB].
  assert (R : replaced true (char_rep nel lsps) (without_bom (stream_text s3)) (rs ++ rb)).
  { rewrite E3, (without_bom_cat _ _ _ EX). apply replaced_app; eauto. }
  pose proof (ST _ R) as U. rewrite concat_app in U. destruct (unguarded_parts _ _ U) as [U1 U2]. rewrite <- concat_app in U.
  rewrite <- (without_bom_none _ NB) in RB.
  rewrite (gives_made _ _ _ _ _ G1 R1 RS U1), (gives_made _ _ _ _ _ G2 R2 RB U2), (gives_made _ _ _ _ _ G3 R3 R U).
  rewrite (without_bom_none _ NB) in RB.
  assert (B : begins_ok nel lsps (stream_text s2) <-> starts_ok (concat rb)).
  { split; [intro H; exact (H _ RB)|]. intros H rb' RB'. now rewrite (replaced_det _ _ _ _ RB' _ RB). }
  rewrite B. destruct (concatenated rs rb LR) as [[S E]|(S & y & E1 & E2)].
  - split; [tauto|]. intro K. contradiction.
  - split; [|intros _; exists y; auto]. split; [|contradiction]. intro K. rewrite K, E1 in E2. apply app_inv_head in E2.
    exfalso. assert (length (0x34F :: y) = length y) by now rewrite E2. cbn in *. lia.
Qed.
