(** Damaged lines. *)
From Coq Require Import NArith Arith List Bool Lia ZifyBool ZifyNat ZifyN.
From Verif Require Import Base Ucd UcdTables Norm Chars TextTables TextUtils UcdFacts NormFacts CharFacts DocTable SpecText TextFacts PipelineFacts DocFacts IsoFacts
  Utf8 Utf8Facts SpecUtf8 Utf8Lossy Input Output ReadFacts ReadInv ReadSession SpecRead ReadChunk SpecEscape EscapeFacts EscapeRun ReadProps KeepFacts ReadPieces SpecConv ConvFacts DocProps CatProps
  SpecWrite WriteFacts WriteProps Strings StringFacts ConcatFacts EdgeFacts SpecString StringProps ScalarFacts LossyProps JoinProps Fuzz FuzzProps SpecMore CanonProps SpecCat SpecCrash CrashProps SpecDamage.
Import ListNotations.
Local Open Scope N_scope.
Arguments N.add : simpl never.
Arguments N.leb : simpl never.
Arguments N.ltb : simpl never.
Arguments N.eqb : simpl never.
Local Opaque pipeline.

(** Decoding bytes before and after an ASCII character. *)
Lemma encode_tail : forall c x w b, encode c = x ++ b :: w -> b < 0x80 -> x = [] /\ w = [] /\ c = b.
Proof.
  intros c x w b E B. unfold encode in E.
  assert (K : forall n, 0x80 + n <> b) by lia.
  destruct (c <? 0x80); [destruct x as [|? [|? ?]]; try discriminate; injection E as -> <-; auto|]. exfalso.
  destruct (c <? 0x800); [destruct x as [|? [|? [|? ?]]]; try discriminate; injection E; intros; subst; lia|].
  destruct (c <? 0x10000); [destruct x as [|? [|? [|? [|? ?]]]]; try discriminate; injection E; intros; subst; lia|].
  destruct x as [|? [|? [|? [|? [|? ?]]]]]; try discriminate; injection E; intros; subst; lia.
Qed.
Definition no_continuation (r : list N) : Prop := forall b t, r = b :: t -> b < 0x80 \/ 0xC0 <= b.
Lemma encode_later : forall c x w b, encode c = x ++ b :: w -> x <> [] -> 0x80 <= b < 0xC0.
Proof.
  intros c x w b E N. unfold encode in E.
  assert (M : forall n, 0x80 <= 0x80 + n mod 64 < 0xC0) by (intro n; pose proof (N.mod_lt n 64); lia).
  destruct x as [|x0 x]; [congruence|].
  destruct (c <? 0x80); [destruct x as [|? ?]; discriminate|].
  destruct (c <? 0x800); [destruct x as [|? [|? ?]]; try discriminate; injection E; intros; subst; apply M|].
  destruct (c <? 0x10000); [destruct x as [|? [|? [|? ?]]]; try discriminate; injection E; intros; subst; apply M|].
  destruct x as [|? [|? [|? [|? ?]]]]; try discriminate; injection E; intros; subst; apply M.
Qed.
Lemma encode_first : forall c t, no_continuation (encode c ++ t).
Proof.
  intros c t b r E. unfold encode in E. destruct (c <? 0x80) eqn:C1; [injection E as <- _; left; lia|right]. destruct (c <? 0x800); [|destruct (c <? 0x10000)]; injection E as <- _; lia.
Qed.
Lemma subpart_before : forall m t r, no_continuation r -> maximal_subpart m t -> maximal_subpart m (t ++ r).
Proof.
  intros m t r B (M1 & M2 & M3 & M4). split; [exact M1|].
  assert (K : forall x y u c, x ++ y = (m ++ t) ++ r -> encode c = x ++ u -> exists l, m ++ t = x ++ l).
  { intros x y u c E EC. apply app_eq_app in E. destruct E as (l & [[E1 E2]|[E1 E2]]); [|now exists l].
    destruct l as [|b' l]; [exists []; now rewrite app_nil_r in E1 |- *|]. exfalso. rewrite E1, <- app_assoc in EC. cbn [app] in EC.
    apply encode_later in EC; [|destruct m; [congruence|discriminate]]. specialize (B b' (l ++ y) E2). lia. }
  split; [|split; [exact M3|]].
  - intros c u SC E. rewrite app_assoc in E. destruct (K (encode c) u [] c (eq_sym E)) as [l EL]; [now rewrite app_nil_r|]. exact (M2 c l SC EL).
  - intros m' t' E (c & u & SC & EC). rewrite app_assoc in E. destruct (K m' t' u c (eq_sym E) EC) as [l EL]. apply (M4 m' l EL). now exists c, u.
Qed.
Lemma decoding_app : forall g a r x, no_continuation r -> lossy_decoding g a -> lossy_decoding r x -> lossy_decoding (g ++ r) (a ++ x).
Proof.
  intros g a r x B G R. induction G as [|c t a SC G IH|m t a M G IH]; [exact R| |].
  - cbn [app]. rewrite <- app_assoc. now apply ld_char.
  - cbn [app]. rewrite <- app_assoc. apply ld_bad; [now apply subpart_before|exact IH].
Qed.
Lemma ascii_first : forall b r, b < 0x80 -> no_continuation (b :: r).
Proof. intros b r B b' r' E. injection E as <- _. now left. Qed.
Lemma decoding_parts : forall g a b r x, b < 0x80 -> lossy_decoding g a -> lossy_decoding r x -> lossy_decoding (g ++ b :: r) (a ++ b :: x).
Proof.
  intros g a b r x B G R. apply decoding_app; [now apply ascii_first|exact G|]. assert (E : encode b = [b]) by (unfold encode; now replace (b <? 0x80) with true by lia).
  change (b :: r) with ([b] ++ r). rewrite <- E. apply ld_char; [unfold is_scalar, in_range; lia|exact R].
Qed.
Lemma decoding_valid : forall s r x, scalars s -> lossy_decoding r x -> lossy_decoding (encode_all s ++ r) (s ++ x).
Proof.
  intros s r x S R. induction S as [|c s SC S IH]; [exact R|]. change (encode_all (c :: s)) with (encode c ++ encode_all s). rewrite <- app_assoc. cbn [app]. now apply ld_char.
Qed.
Lemma decoding_nil : lossy_decoding [] [].
Proof. constructor. Qed.
Lemma decoding_bytes : forall g a b, lossy_decoding g a -> b < 0x80 -> In b a -> In b g.
Proof.
  intros g a b G B. induction G as [|c t a SC G IH|m t a M G IH]; [auto| |].
  - intros [->|I]; apply in_or_app; [left|right; auto]. unfold encode. replace (b <? 0x80) with true by lia. now left.
  - intros [E|I]; [exfalso; lia|]. apply in_or_app. right. auto.
Qed.
Lemma damage_decoding : forall bom cr cr2 t1 g t2 d x, scalars t1 -> scalars t2 -> lossy_decoding g d -> lossy_decoding (with_damage bom cr cr2 t1 g t2) x ->
  x = stored bom cr t1 ++ d ++ 0xA :: as_sent cr2 t2.
Proof.
  intros bom cr cr2 t1 g t2 d x S1 S2 G X. apply (lossy_decoding_unique _ _ _ X). unfold with_damage. apply decoding_valid; [now apply stored_scalars|]. cbn [app]. apply decoding_parts; [lia|exact G|].
  pose proof (decoding_valid (as_sent cr2 t2) [] [] (stored_scalars false cr2 t2 S2) decoding_nil) as K. now rewrite !app_nil_r in K.
Qed.

(** A line without U+1B is a line. *)
Lemma rep_lf : forall nel lsps, char_rep nel lsps 0xA = [0xA].
Proof. intros [|] [|]; vm_compute; reflexivity. Qed.
Lemma row_line : forall nel lsps m r d, row true (char_rep nel lsps) m r -> ~ In 0x1B m -> m = d ++ [0xA] -> r = [0xA].
Proof.
  intros nel lsps m r d R NE E.
  assert (ESC : forall e x, run_of 0x1B e -> ~ In 0x1B (e ++ x) -> False).
  { intros e x [N F] I. destruct e as [|c e]; [congruence|]. apply I. left. exact (Forall_inv F). }
  assert (FFR : forall f, run_of 0xC f -> f = d ++ [0xA] -> False).
  { intros f [_ F] ->. apply Forall_app in F. destruct F as [_ F]. pose proof (Forall_inv F). discriminate. }
  destruct R; try reflexivity; try (exfalso; now eapply ESC; eauto).
  - exfalso. now apply (FFR f).
  - exfalso. apply (ESC e []); [assumption|]. now rewrite app_nil_r.
  - destruct d as [|? [|? ?]]; try discriminate. injection E as ->. apply rep_lf.
Qed.
Lemma line_end : forall nel lsps s rs, replaced true (char_rep nel lsps) s rs -> ~ In 0x1B s -> forall d, s = d ++ [0xA] -> last_opt rs = Some [0xA].
Proof.
  intros nel lsps s rs R. induction R as [|m r rest rs R L T IH]; intros NE d E; [destruct d; discriminate|].
  destruct rest as [|c rest] using rev_ind.
  - apply replaced_nil_inv in T. subst rs. rewrite app_nil_r in E, NE. now rewrite (row_line _ _ _ _ _ R NE E).
  - clear IHrest. rewrite app_assoc in E. apply app_inj_tail in E. destruct E as [_ ->].
    assert (LR : last_opt rs = Some [0xA]) by (apply (IH (fun I => NE (in_or_app _ _ _ (or_intror I))) rest); reflexivity).
    destruct rs; [discriminate|exact LR].
Qed.
Lemma last_line : forall rs, last_opt rs = Some [0xA] -> exists v, concat rs = v ++ [0xA].
Proof. intros rs L. destruct rs as [|r rs] using rev_ind; [discriminate|]. rewrite last_opt_snoc in L. injection L as ->. exists (concat rs). rewrite concat_app. cbn. reflexivity. Qed.
Lemma made_line : forall rs, last_opt rs = Some [0xA] -> made rs = guard_start (concat rs).
Proof.
  intros rs L. unfold made, final_newline. rewrite L. change (list_eqb [0xA] [0xA]) with true. cbv iota. rewrite app_nil_r. destruct (last_line rs L) as [v ->].
  unfold guard_end, guard_start. destruct v as [|c v]; [reflexivity|]. cbn [app]. destruct (is_basic_text_start c).
  - change (c :: v ++ [0xA]) with ((c :: v) ++ [0xA]). now rewrite last_opt_snoc.
  - change (0x34F :: c :: v ++ [0xA]) with ((0x34F :: c :: v) ++ [0xA]). now rewrite last_opt_snoc.
Qed.
Lemma last_single : forall t, last_opt t = Some 0xA -> last_opt (map (fun c : N => [c]) t) = Some [0xA].
Proof. intros t L. destruct t as [|c t] using rev_ind; [discriminate|]. rewrite last_opt_snoc in L. injection L as ->. rewrite map_app. apply last_opt_snoc. Qed.
Lemma last_lines : forall rd t2, last_opt rd = Some [0xA] -> line_terminated t2 -> last_opt (rd ++ map (fun c : N => [c]) t2) = Some [0xA].
Proof.
  intros rd t2 L [->|[u ->]]; [now rewrite app_nil_r|]. rewrite map_app, app_assoc. apply last_opt_snoc.
Qed.

Section Texts.
Variables (t1 t2 : list N) (rd : list (list N)).
Hypothesis L1 : line_terminated t1.
Hypothesis L2 : line_terminated t2.
Hypothesis LD : last_opt rd = Some [0xA].
Hypothesis P1 : pipeline t1 = t1.
Hypothesis P2 : pipeline t2 = t2.
Lemma made_first : exists y, pipeline (made (rd ++ map (fun c => [c]) t2)) = (y ++ [0xA]) ++ t2 /\ pipeline (made rd) = y ++ [0xA].
Proof.
  rewrite !made_line; [|exact LD|now apply last_lines]. rewrite concat_app, concat_singles. destruct (last_line rd LD) as [v ->]. rewrite <- app_assoc.
  assert (G : exists w, forall z, guard_start (v ++ 0xA :: z) = w ++ LF :: z).
  { destruct v as [|c v]; [exists []; reflexivity|]. cbn [app guard_start]. destruct (is_basic_text_start c); [exists (c :: v)|exists (0x34F :: c :: v)]; reflexivity. }
  destruct G as [w G]. cbn [app]. rewrite !G, !pipeline_LF, P2. exists (pipeline w). rewrite <- app_assoc. split; [reflexivity|]. now replace (pipeline []) with (@nil N) by (vm_compute; reflexivity).
Qed.
Hypothesis N1 : t1 <> [].
Hypothesis S1 : starts_ok t1.
Lemma made_middle : exists y, pipeline (made (map (fun c => [c]) t1 ++ rd ++ map (fun c => [c]) t2)) = t1 ++ y ++ 0xA :: t2 /\ pipeline (made ([0xA] :: rd)) = 0xA :: y ++ [0xA].
Proof.
  assert (LA : forall a r : list (list N), last_opt r = Some [0xA] -> last_opt (a ++ r) = Some [0xA]).
  { intros a r L. destruct r as [|z r] using rev_ind; [discriminate|]. rewrite last_opt_snoc in L. rewrite app_assoc, last_opt_snoc. exact L. }
  rewrite !made_line; [|exact (LA [[0xA]] rd LD)|apply LA; now apply last_lines]. rewrite !concat_app, !concat_singles. cbn [concat].
  destruct (last_line rd LD) as [v ->]. destruct L1 as [|[u EU]]; [contradiction|]. change [LF] with [0xA] in EU.
  assert (EU2 : u = pipeline u).
  { rewrite EU in P1. change (u ++ [0xA]) with (u ++ LF :: []) in P1. rewrite pipeline_LF in P1. replace (pipeline []) with (@nil N) in P1 by (vm_compute; reflexivity). change [LF] with [0xA] in P1. change (u ++ LF :: []) with (u ++ [0xA]) in P1. apply app_inj_tail in P1. now destruct P1. }
  exists (pipeline v). split.
  - rewrite start_id.
    + rewrite EU at 1. rewrite <- !app_assoc. cbn [app]. change (u ++ 0xA :: v ++ 0xA :: t2) with (u ++ LF :: v ++ LF :: t2). rewrite !pipeline_LF, P2, <- EU2. rewrite EU, <- app_assoc. reflexivity.
    + destruct t1 as [|c t]; [contradiction|]. intros c' z E. injection E as <- _. exact (S1 c t eq_refl).
  - change (guard_start ([0xA] ++ v ++ [0xA])) with (if is_basic_text_start 0xA then [0xA] ++ v ++ [0xA] else 0x34F :: [0xA] ++ v ++ [0xA]). replace (is_basic_text_start 0xA) with true by (vm_compute; reflexivity).
    change ([0xA] ++ v ++ [0xA]) with ([] ++ LF :: v ++ LF :: []). rewrite !pipeline_LF. replace (pipeline []) with (@nil N) by (vm_compute; reflexivity). reflexivity.
Qed.
End Texts.

Lemma gives_once_made : forall nel lsps x o rs, gives nel lsps [Chunk x End] o -> replaced true (char_rep nel lsps) (without_bom x) rs -> o = pipeline (made rs).
Proof.
  intros nel lsps x o rs (sizes & out & j & rest & H & E & <-) R. destruct (session_end _ _ _ _ _ _ _ H E) as (-> & _). rewrite converted_whole. f_equal. rewrite (translate_replaced _ _ _ _ R). unfold made. now rewrite final_newline_eq.
Qed.
Lemma replaced_lf : forall nel lsps x rs, replaced true (char_rep nel lsps) x rs -> replaced true (char_rep nel lsps) (0xA :: x) ([0xA] :: rs).
Proof.
  intros nel lsps x rs R. change (0xA :: x) with ([0xA] ++ x). change ([0xA] :: rs) with ([[0xA]] ++ rs). apply replaced_app; [|now exists []|reflexivity|exact R].
  exact (sent_replaced false nel lsps [0xA] (Forall_cons _ clean_lf (Forall_nil _))).
Qed.
Lemma sent_ends : forall cr u, exists x, as_sent cr (u ++ [0xA]) = x ++ [0xA].
Proof. intros cr u. rewrite as_sent_app. destruct cr; [exists (as_sent true u ++ [0xD])|exists u]; [|reflexivity]. rewrite <- app_assoc. reflexivity. Qed.
Lemma no_esc : forall g d, lossy_decoding g d -> ~ In 0x1B g -> ~ In 0x1B (d ++ [0xA]).
Proof. intros g d D N I. apply in_app_or in I. destruct I as [I|[I|[]]]; [|discriminate]. apply N. exact (decoding_bytes g d 0x1B D ltac:(lia) I). Qed.
Lemma whole_clean : forall t, string_ok t -> all_clean t.
Proof. intros t OK. apply Forall_allowed_clean. apply OK. Qed.

Section Middle.
Variables (bom cr cr2 nel lsps : bool) (t1 g t2 d : list N).
Hypothesis W1 : whole_lines t1.
Hypothesis W2 : whole_lines t2.
Hypothesis D : lossy_decoding g d.
Lemma middle_replaced : ends_line nel lsps (d ++ [0xA]) -> t1 <> [] -> exists rd, replaced true (char_rep nel lsps) (d ++ [0xA]) rd /\ last_opt rd = Some [0xA] /\
  replaced true (char_rep nel lsps) (without_bom (stored bom cr t1 ++ d ++ 0xA :: as_sent cr2 t2)) (map (fun c => [c]) t1 ++ rd ++ map (fun c => [c]) t2).
Proof.
  intros (x0 & rd & _ & RD & LD) N1. destruct W1 as (O1 & L1 & S1), W2 as (O2 & L2 & S2). exists rd. split; [exact RD|]. split; [exact LD|].
  rewrite stored_without; [|now apply whole_clean|intros u E; contradiction].
  destruct L1 as [|[u EU]]; [contradiction|].
  apply replaced_app; [apply sent_replaced; now apply whole_clean|rewrite EU; apply sent_ends|apply last_single; rewrite EU; apply last_opt_snoc|].
  change (d ++ 0xA :: as_sent cr2 t2) with (d ++ [0xA] ++ as_sent cr2 t2). rewrite app_assoc. apply replaced_app; [exact RD|now exists d|exact LD|]. apply sent_replaced. now apply whole_clean.
Qed.
Lemma first_replaced : ends_line nel lsps (without_bom (d ++ [0xA])) -> exists rd, replaced true (char_rep nel lsps) (without_bom (d ++ [0xA])) rd /\ last_opt rd = Some [0xA] /\
  replaced true (char_rep nel lsps) (without_bom (d ++ 0xA :: as_sent cr2 t2)) (rd ++ map (fun c => [c]) t2).
Proof.
  intros (x0 & rd & _ & RD & LD). destruct W2 as (O2 & L2 & S2). exists rd. split; [exact RD|].
  assert (EX : exists x, without_bom (d ++ [0xA]) = x ++ [0xA]).
  { destruct d as [|c d']; [exists []; reflexivity|]. cbn [app without_bom]. destruct (c =? 0xFEFF); [now exists d'|now exists (c :: d')]. }
  destruct EX as [x EX].
  split; [exact LD|]. change (d ++ 0xA :: as_sent cr2 t2) with (d ++ [0xA] ++ as_sent cr2 t2). rewrite app_assoc, (without_bom_cat _ _ _ EX). apply replaced_app; [exact RD|now exists x|exact LD|]. apply sent_replaced. now apply whole_clean.
Qed.

Lemma starts_string : forall t, string_ok t -> starts_ok t.
Proof. intros t OK. apply OK. Qed.
(** Read at once. *)
Theorem damage_at_once_esc : ends_line nel lsps (d ++ [0xA]) -> forall x o, t1 <> [] -> preceded t1 -> preceded t2 -> lossy_decoding (with_damage bom cr cr2 t1 g t2) x ->
  gives nel lsps [Chunk x End] o -> exists y, o = t1 ++ y ++ 0xA :: t2 /\ forall z, gives nel lsps [Chunk (0xA :: d ++ [0xA]) End] z -> z = 0xA :: y ++ [0xA].
Proof.
  intros EL x o N1 P1 P2 X G. destruct (middle_replaced EL N1) as (rd & RD & LD & R). destruct W1 as (O1 & L1 & S1), W2 as (O2 & L2 & S2).
  rewrite <- (damage_decoding bom cr cr2 t1 g t2 d x S1 S2 D X) in R. apply (gives_once_made _ _ _ _ _ G) in R. apply replaced_lf in RD.
  destruct (made_middle t1 t2 rd L1 L2 LD (ok_pipeline t1 O1 P1) (ok_pipeline t2 O2 P2) N1 (starts_string t1 O1)) as (y & E1 & E2). exists y. split; [congruence|]. intros z Z. apply (gives_once_made _ _ _ _ _ Z) in RD. congruence.
Qed.
Theorem damage_first_at_once_esc : ends_line nel lsps (without_bom (d ++ [0xA])) -> forall x o, preceded t2 -> lossy_decoding (g ++ [0xA] ++ encode_all (as_sent cr2 t2)) x ->
  gives nel lsps [Chunk x End] o -> exists y, o = y ++ 0xA :: t2 /\ forall z, gives nel lsps [Chunk (d ++ [0xA]) End] z -> z = y ++ [0xA].
Proof.
  intros EL x o P2 X G. destruct (first_replaced EL) as (rd & RD & LD & R). destruct W2 as (O2 & L2 & S2).
  assert (EX : x = d ++ 0xA :: as_sent cr2 t2).
  { replace (d ++ 0xA :: as_sent cr2 t2) with (stored false false [] ++ d ++ 0xA :: as_sent cr2 t2) by reflexivity. apply (damage_decoding false false cr2 [] g t2 d x); [constructor|exact S2|exact D|]. exact X. }
  rewrite <- EX in R. apply (gives_once_made _ _ _ _ _ G) in R.
  destruct (made_first t2 rd L2 LD (ok_pipeline t2 O2 P2)) as (y & E1 & E2). exists y. split; [rewrite R, E1, <- app_assoc; reflexivity|]. intros z Z. apply (gives_once_made _ _ _ _ _ Z) in RD. congruence.
Qed.
(** Read in any pieces. *)
Hypothesis A1 : Forall (fun c => is_assigned c = true) t1.
Hypothesis A2 : Forall (fun c => is_assigned c = true) t2.
Lemma unguarded_around : forall a m b, Forall (fun c => is_assigned c = true) a -> Forall (fun c => is_assigned c = true) b -> (a = [] \/ exists u, a = u ++ [0xA]) -> unguarded_text m ->
  unguarded_text (a ++ m ++ b).
Proof.
  intros a m b A B L U.
  assert (UB : unguarded_text (m ++ b)).
  { intros x c y E. apply app_eq_app in E. destruct E as (l & [[E1 E2]|[E1 E2]]).
    - destruct l as [|x1 [|x2 l]].
      + cbn [app] in E2. rewrite Forall_forall in B. apply B. rewrite <- E2. right. now left.
      + rewrite Forall_forall in B. injection E2 as _ E2. cbn [app] in E2. apply B. rewrite <- E2. now left.
      + injection E2 as <- <- _. now apply (U x c l).
    - rewrite Forall_forall in B. apply B. rewrite E2. apply in_or_app. right. right. now left. }
  destruct L as [->|[u ->]]; [exact UB|]. apply unguarded_cat; [now apply assigned_unguarded|exact UB].
Qed.
Lemma lines_lf : forall t, line_terminated t -> t = [] \/ exists u, t = u ++ [0xA].
Proof. intros t H. exact H. Qed.
Theorem damage_read_esc : ends_line nel lsps (d ++ [0xA]) -> forall sc o, t1 <> [] -> settled nel lsps (d ++ [0xA]) -> lossy_decoding (with_damage bom cr cr2 t1 g t2) (stream_text sc) -> regular sc ->
  gives nel lsps sc o -> exists y, o = t1 ++ y ++ 0xA :: t2 /\ forall z, gives nel lsps [Chunk (0xA :: d ++ [0xA]) End] z -> z = 0xA :: y ++ [0xA].
Proof.
  intros EL sc o N1 ST X RG G. destruct (middle_replaced EL N1) as (rd & RD & LD & R). pose proof (ST _ RD) as U. destruct W1 as (O1 & L1 & S1), W2 as (O2 & L2 & S2).
  rewrite <- (damage_decoding bom cr cr2 t1 g t2 d _ S1 S2 D X) in R. apply (gives_made _ _ _ _ _ G RG) in R; [|rewrite !concat_app, !concat_singles; apply unguarded_around; auto]. apply replaced_lf in RD.
  destruct (made_middle t1 t2 rd L1 L2 LD (ok_pipeline t1 O1 (assigned_preceded _ A1)) (ok_pipeline t2 O2 (assigned_preceded _ A2)) N1 (starts_string t1 O1)) as (y & E1 & E2). exists y. split; [congruence|]. intros z Z. apply (gives_once_made _ _ _ _ _ Z) in RD. congruence.
Qed.
Theorem damage_first_esc : ends_line nel lsps (without_bom (d ++ [0xA])) -> forall sc o, settled nel lsps (without_bom (d ++ [0xA])) -> lossy_decoding (g ++ [0xA] ++ encode_all (as_sent cr2 t2)) (stream_text sc) -> regular sc ->
  gives nel lsps sc o -> exists y, o = y ++ 0xA :: t2 /\ forall z, gives nel lsps [Chunk (d ++ [0xA]) End] z -> z = y ++ [0xA].
Proof.
  intros EL sc o ST X RG G. destruct (first_replaced EL) as (rd & RD & LD & R). pose proof (ST _ RD) as U. destruct W2 as (O2 & L2 & S2).
  assert (EX : stream_text sc = d ++ 0xA :: as_sent cr2 t2).
  { replace (d ++ 0xA :: as_sent cr2 t2) with (stored false false [] ++ d ++ 0xA :: as_sent cr2 t2) by reflexivity. apply (damage_decoding false false cr2 [] g t2 d _); [constructor|exact S2|exact D|]. exact X. }
  rewrite <- EX in R. apply (gives_made _ _ _ _ _ G RG) in R; [|rewrite !concat_app, !concat_singles; apply (unguarded_around []); auto].
  destruct (made_first t2 rd L2 LD (ok_pipeline t2 O2 (assigned_preceded _ A2))) as (y & E1 & E2). exists y. split; [rewrite R, E1, <- app_assoc; reflexivity|]. intros z Z. apply (gives_once_made _ _ _ _ _ Z) in RD. congruence.
Qed.
End Middle.
Lemma plain_line : forall nel lsps g d, ~ In 0x1B g -> lossy_decoding g d -> ends_line nel lsps (d ++ [0xA]).
Proof.
  intros nel lsps g d NE D. destruct (replaced_total nel lsps (d ++ [0xA])) as [rd RD]. exists d, rd. split; [reflexivity|]. split; [exact RD|]. exact (line_end _ _ _ _ RD (no_esc g d D NE) d eq_refl).
Qed.
Lemma plain_first : forall nel lsps g d, ~ In 0x1B g -> lossy_decoding g d -> ends_line nel lsps (without_bom (d ++ [0xA])).
Proof.
  intros nel lsps g d NE D. destruct (replaced_total nel lsps (without_bom (d ++ [0xA]))) as [rd RD].
  assert (EX : exists x, without_bom (d ++ [0xA]) = x ++ [0xA]).
  { destruct d as [|c d']; [exists []; reflexivity|]. cbn [app without_bom]. destruct (c =? 0xFEFF); [now exists d'|now exists (c :: d')]. }
  destruct EX as [x EX]. exists x, rd. split; [exact EX|]. split; [exact RD|]. apply (line_end _ _ _ _ RD) with (d := x); [|exact EX]. intro I. apply (no_esc g d D NE). revert I. destruct (d ++ [0xA]) as [|c z]; [auto|]. cbn [without_bom]. destruct (c =? 0xFEFF); [now right|auto].
Qed.
(** A computation that decides [ends_line]. *)
Lemma line_run : forall nel lsps d, snd (snd (run nel lsps (true, Ground false) (d ++ [0xA]))) = Ground true -> ends_line nel lsps (d ++ [0xA]).
Proof.
  intros nel lsps d H. destruct (run_replaced nel lsps (d ++ [0xA])) as (rs & R & K). rewrite K in H. cbn [snd] in H. injection H as H. exists d, rs. split; [reflexivity|]. split; [exact R|].
  unfold last_nl in H. destruct (last_opt rs) as [r|]; [|discriminate]. unfold is_LF in H. destruct r as [|c [|c' r]]; try discriminate. apply N.eqb_eq in H. now subst c.
Qed.
Theorem damage_at_once : forall bom cr cr2 nel lsps t1 g t2 d, whole_lines t1 -> whole_lines t2 -> ~ In 0x1B g -> lossy_decoding g d ->
  forall x o, t1 <> [] -> preceded t1 -> preceded t2 -> lossy_decoding (with_damage bom cr cr2 t1 g t2) x ->
  gives nel lsps [Chunk x End] o -> exists y, o = t1 ++ y ++ 0xA :: t2 /\ forall z, gives nel lsps [Chunk (0xA :: d ++ [0xA]) End] z -> z = 0xA :: y ++ [0xA].
Proof. intros bom cr cr2 nel lsps t1 g t2 d W1 W2 NE D. apply (damage_at_once_esc bom cr cr2 nel lsps t1 g t2 d W1 W2 D). now apply (plain_line nel lsps g d). Qed.
Theorem damage_first_at_once : forall cr2 nel lsps g t2 d, whole_lines t2 -> ~ In 0x1B g -> lossy_decoding g d ->
  forall x o, preceded t2 -> lossy_decoding (g ++ [0xA] ++ encode_all (as_sent cr2 t2)) x ->
  gives nel lsps [Chunk x End] o -> exists y, o = y ++ 0xA :: t2 /\ forall z, gives nel lsps [Chunk (d ++ [0xA]) End] z -> z = y ++ [0xA].
Proof. intros cr2 nel lsps g t2 d W2 NE D. apply (damage_first_at_once_esc cr2 nel lsps g t2 d W2 D). now apply (plain_first nel lsps g d). Qed.
Theorem damage_read : forall bom cr cr2 nel lsps t1 g t2 d, whole_lines t1 -> whole_lines t2 -> ~ In 0x1B g -> lossy_decoding g d ->
  Forall (fun c => is_assigned c = true) t1 -> Forall (fun c => is_assigned c = true) t2 ->
  forall sc o, t1 <> [] -> settled nel lsps (d ++ [0xA]) -> lossy_decoding (with_damage bom cr cr2 t1 g t2) (stream_text sc) -> regular sc ->
  gives nel lsps sc o -> exists y, o = t1 ++ y ++ 0xA :: t2 /\ forall z, gives nel lsps [Chunk (0xA :: d ++ [0xA]) End] z -> z = 0xA :: y ++ [0xA].
Proof. intros bom cr cr2 nel lsps t1 g t2 d W1 W2 NE D A1 A2. apply (damage_read_esc bom cr cr2 nel lsps t1 g t2 d W1 W2 D A1 A2). now apply (plain_line nel lsps g d). Qed.
Theorem damage_first : forall cr2 nel lsps g t2 d, whole_lines t2 -> ~ In 0x1B g -> lossy_decoding g d -> Forall (fun c => is_assigned c = true) t2 ->
  forall sc o, settled nel lsps (without_bom (d ++ [0xA])) -> lossy_decoding (g ++ [0xA] ++ encode_all (as_sent cr2 t2)) (stream_text sc) -> regular sc ->
  gives nel lsps sc o -> exists y, o = y ++ 0xA :: t2 /\ forall z, gives nel lsps [Chunk (d ++ [0xA]) End] z -> z = y ++ [0xA].
Proof. intros cr2 nel lsps g t2 d W2 NE D A2. apply (damage_first_esc cr2 nel lsps g t2 d W2 D A2). now apply (plain_first nel lsps g d). Qed.

(** Writing on after a stream was cut off. *)
Lemma byte_char : forall s b, b < 0x80 -> In b (encode_all s) -> In b s.
Proof.
  intros s b B I. unfold encode_all in I. apply in_flat_map in I. destruct I as (c & IC & IB). apply in_split in IB. destruct IB as (x & w & E). apply encode_tail in E; [|exact B]. destruct E as (_ & _ & <-). exact IC.
Qed.
Lemma stored_no_esc : forall bom cr t, all_clean t -> ~ In 0x1B (encode_all (stored bom cr t)).
Proof.
  intros bom cr t A I. apply byte_char in I; [|lia]. unfold stored in I. apply in_app_or in I. destruct I as [I|I]; [destruct bom; [destruct I as [I|[]]; discriminate|destruct I]|].
  assert (J : In 0x1B t).
  { destruct cr; [|exact I]. clear A. induction t as [|c t IH]; [destruct I|]. change (c :: t) with ([c] ++ t) in I. rewrite as_sent_app in I. apply in_app_or in I. destruct I as [I|I]; [|right; auto].
    cbn in I. destruct (c =? 10); [destruct I as [I|[I|[]]]; discriminate|destruct I as [I|[]]; now left]. }
  rewrite Forall_forall in A. specialize (A _ J). revert A. vm_compute. discriminate.
Qed.
Lemma sent_assigned : forall bom cr t, Forall (fun c => is_assigned c = true) t -> Forall (fun c => is_assigned c = true) (stored bom cr t).
Proof.
  intros bom cr t A. unfold stored. apply Forall_app. split; [destruct bom; repeat constructor; vm_compute; reflexivity|]. destruct cr; [|exact A]. induction A as [|c t AC A IH]; [constructor|].
  change (c :: t) with ([c] ++ t). rewrite as_sent_app. apply Forall_app. split; [|exact IH]. cbn. destruct (c =? 10); repeat constructor; try exact AC; vm_compute; reflexivity.
Qed.
Lemma cut_assigned : forall s h d, scalars s -> Forall (fun c => is_assigned c = true) s -> beginning h (encode_all s) -> lossy_decoding h d -> Forall (fun c => is_assigned c = true) d.
Proof.
  intros s h d S A B D. destruct (bytes_cut s h B) as (q & r & k & -> & -> & H). rewrite (cut_decoding q r k d S H D). apply Forall_app in A. destruct A as [A _]. apply Forall_app. split; [exact A|]. destruct k; repeat constructor.
Qed.
Lemma line_settled : forall nel lsps d, Forall (fun c => is_assigned c = true) d -> settled nel lsps (d ++ [0xA]).
Proof. intros nel lsps d A rs R. apply (unguarded_assigned _ _ _ _ R). apply Forall_app. split; [exact A|]. repeat constructor. Qed.
Definition line_mark (cr : bool) : list N := if cr then [0xD] else [].
Lemma sent_line : forall cr f l, encode_all (as_sent cr (f ++ 0xA :: l)) = (encode_all (as_sent cr f) ++ line_mark cr) ++ [0xA] ++ encode_all (as_sent cr l).
Proof. intros cr f l. change (0xA :: l) with ([0xA] ++ l). rewrite !as_sent_app, !encode_all_app, <- !app_assoc. f_equal. destruct cr; reflexivity. Qed.
Section Append.
Variables (bom cr cr2 nel lsps : bool) (t p r f l b : list N).
Hypothesis OT : Forall allowed t.
Hypothesis ST : scalars t.
Hypothesis AT : Forall (fun c => is_assigned c = true) t.
Hypothesis WP : whole_lines p.
Hypothesis ET : t = p ++ r.
Hypothesis OF : Forall allowed f.
Hypothesis SF : scalars f.
Hypothesis AF : Forall (fun c => is_assigned c = true) f.
Hypothesis WL : whole_lines l.
Hypothesis AL : Forall (fun c => is_assigned c = true) l.
Hypothesis CUT : cut_off bom cr t b.
Hypothesis SV : survives bom cr p b.
Lemma rest_line : forall h s, scalars s -> Forall (fun c => is_assigned c = true) s -> beginning h (encode_all s) -> ~ In 0x1B h ->
  exists d, lossy_decoding (h ++ encode_all (as_sent cr2 f) ++ line_mark cr2) d /\ Forall (fun c => is_assigned c = true) d /\ ~ In 0x1B (h ++ encode_all (as_sent cr2 f) ++ line_mark cr2).
Proof.
  intros h s S A B N. exists (utf8_lossy h ++ as_sent cr2 f ++ line_mark cr2).
  assert (EM : encode_all (line_mark cr2) = line_mark cr2) by (destruct cr2; reflexivity).
  assert (SS : scalars (as_sent cr2 f ++ line_mark cr2)) by (apply Forall_app; split; [exact (stored_scalars false cr2 f SF)|destruct cr2; repeat constructor]).
  rewrite <- EM at 1. rewrite <- encode_all_app. split; [|split].
  - apply decoding_app; [|apply utf8_lossy_spec|].
    + destruct (as_sent cr2 f ++ line_mark cr2) as [|c z]; [intros b' r' E; discriminate|]. apply encode_first.
    + pose proof (decoding_valid _ [] [] SS decoding_nil) as K. now rewrite !app_nil_r in K.
  - apply Forall_app. split; [exact (cut_assigned s h _ S A B (utf8_lossy_spec h))|]. apply Forall_app. split; [exact (sent_assigned false cr2 f AF)|]. destruct cr2; repeat constructor.
  - intro I. apply in_app_or in I. destruct I as [I|I]; [contradiction|]. apply in_app_or in I. destruct I as [I|I]; [|destruct cr2; [destruct I as [I|[]]; discriminate|destruct I]].
    revert I. apply (stored_no_esc false cr2 f). now apply Forall_allowed_clean.
Qed.
Theorem append_read : forall sc o, lossy_decoding (b ++ encode_all (as_sent cr2 (f ++ 0xA :: l))) (stream_text sc) -> regular sc -> gives nel lsps sc o -> exists y, o = p ++ y ++ 0xA :: l.
Proof.
  intros sc o X RG G. destruct CUT as [z CZ]. rewrite sent_line in X. assert (CT : all_clean t) by now apply Forall_allowed_clean.
  destruct p as [|p0 p'] eqn:EP.
  - assert (NB : ~ In 0x1B b) by (intro I; apply (stored_no_esc bom cr t CT); rewrite CZ; apply in_or_app; now left).
    destruct (rest_line b (stored bom cr t) (stored_scalars bom cr t ST) (sent_assigned bom cr t AT) CUT NB) as (d & D & A & N).
    rewrite app_assoc in X.
    destruct (damage_first cr2 nel lsps _ l d WL N D AL sc o) with (2 := X) (3 := RG) (4 := G) as (y & -> & _).
    + intros rs R. apply (unguarded_assigned _ _ _ _ R). assert (A1 : Forall (fun c => is_assigned c = true) (d ++ [0xA])) by (apply Forall_app; split; [exact A|repeat constructor]).
      destruct (d ++ [0xA]) as [|c w]; [exact A1|]. cbn [without_bom]. destruct (c =? 0xFEFF); [now inversion A1|exact A1].
    + now exists y.
  - rewrite <- EP in *. assert (NP : p <> []) by (rewrite EP; discriminate). destruct SV as [h EH].
    assert (EZ : encode_all (as_sent cr r) = h ++ z).
    { apply (app_inv_head (encode_all (stored bom cr p))). rewrite <- encode_all_app, <- stored_app, <- ET, CZ, EH. now rewrite app_assoc. }
    rewrite ET in ST, AT, CT. apply Forall_app in ST, AT, CT. destruct ST as [SP SR], AT as [AP AR], CT as [_ CR].
    assert (NH : ~ In 0x1B h) by (intro I; apply (stored_no_esc false cr r CR); change (stored false cr r) with (as_sent cr r); rewrite EZ; apply in_or_app; now left).
    destruct (rest_line h (as_sent cr r) (stored_scalars false cr r SR) (sent_assigned false cr r AR) (ex_intro _ z EZ) NH) as (d & D & A & N).
    rewrite EH in X. rewrite <- !app_assoc in X. rewrite (app_assoc (encode_all (as_sent cr2 f))), (app_assoc h) in X.
    destruct (damage_read bom cr cr2 nel lsps p _ l d WP WL N D AP AL sc o NP (line_settled nel lsps d A) X RG G) as (y & -> & _). now exists y.
Qed.
End Append.
