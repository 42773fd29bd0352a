(** A reader whose underlying stream is another reader: streams with pushes. *)
From Coq Require Import NArith Arith List Bool Lia.
From Verif Require Import Base Ucd Norm Chars TextUtils NormFacts CharFacts SpecText TextFacts PipelineFacts IsoFacts KeepFacts
  Utf8 Utf8Facts Input Output ReadFacts ReadInv ReadSession SpecRead ReadChunk SpecEscape ReadProps SpecConv
  SpecWrite Strings SpecString StringProps LossyProps SpecMore CanonProps SpecCut CutProps SpecCat SpecPush PushProps SpecAscii AsciiProps ReadMore ReadPieces SpecLayer OptionProps LayerProps.
Import ListNotations.
Local Open Scope N_scope.

(** * U+34F is never lost *)
Lemma count_cons : forall x y l, count (y :: l) x = ((if N.eq_dec y x then 1 else 0) + count l x)%nat.
Proof. intros x y l. cbn [count_occ]. now destruct (N.eq_dec y x). Qed.
Lemma nfc_count_le : forall n s, (length s <= n)%nat -> (count s CGJ <= count (nfc s) CGJ)%nat.
Proof.
  induction n as [|n IH]; intros s L; [destruct s; [apply Nat.le_0_l|cbn in L; lia]|].
  destruct (in_dec N.eq_dec CGJ s) as [K|K].
  - apply in_split in K. destruct K as (a & b & ->). rewrite app_length in L. cbn [length] in L. rewrite nfc_app_inert by apply (b_inert _ boring_CGJ).
    rewrite !count_occ_app, !count_cons. pose proof (IH a ltac:(lia)). pose proof (IH b ltac:(lia)). lia.
  - apply (count_occ_not_In N.eq_dec) in K. rewrite K. lia.
Qed.
Lemma ss_count_le : forall s n, (count s CGJ <= count (stream_safe_go n s) CGJ)%nat.
Proof.
  induction s as [|c s IH]; intro n; cbn [stream_safe_go]; [lia|].
  destruct (Nat.ltb _ _); rewrite !count_cons; [pose proof (IH (count_next 0 c))|pose proof (IH (count_next n c))]; destruct (N.eq_dec c CGJ), (N.eq_dec CGJ CGJ); lia.
Qed.
Lemma pipeline_count_le : forall s, all_clean s -> Forall (fun c => is_assigned c = true) s -> (count s CGJ <= count (pipeline s) CGJ)%nat.
Proof.
  intros s C A. unfold pipeline. rewrite CanonProps.iso_assigned, cjk_clean_id by assumption.
  eapply Nat.le_trans; [apply (ss_count_le s 0)|]. now apply (nfc_count_le (length (stream_safe s))).
Qed.

(** * Guards *)
Lemma guard_count : forall s, (count s CGJ <= count (guard_end (guard_start s)) CGJ)%nat /\
  ((count (guard_end (guard_start s)) CGJ <= count s CGJ)%nat -> starts_ok s /\ ends_ok s).
Proof.
  intro s.
  assert (GS : (count s CGJ <= count (guard_start s) CGJ)%nat /\ ((count (guard_start s) CGJ <= count s CGJ)%nat -> starts_ok s)).
  { destruct s as [|c s]; [split; [apply le_n|intros _ c t E; discriminate]|]. unfold guard_start. destruct (is_basic_text_start c) eqn:E.
    - split; [apply le_n|]. intros _ d t ED. injection ED as <- <-. exact E.
    - rewrite (count_cons _ 0x34F). change 0x34F with CGJ. destruct (N.eq_dec CGJ CGJ); [|congruence]. split; lia. }
  assert (GE : forall t, (count t CGJ <= count (guard_end t) CGJ)%nat /\ ((count (guard_end t) CGJ <= count t CGJ)%nat -> ends_ok t)).
  { intro t. unfold guard_end. destruct (last_opt t) as [c|] eqn:EL.
    - destruct (is_basic_text_end c) eqn:E.
      + split; [apply le_n|]. intros _ u d ED. subst t. rewrite last_opt_snoc in EL. injection EL as ->. exact E.
      + rewrite count_occ_app, count_cons. change 0x34F with CGJ. destruct (N.eq_dec CGJ CGJ); [|congruence]. cbn [count_occ]. split; lia.
    - split; [apply le_n|]. intros _ u d ->. now rewrite last_opt_snoc in EL. }
  destruct GS as [G1 G2], (GE (guard_start s)) as [G3 G4]. split; [lia|]. intro L.
  assert (SO : starts_ok s) by (apply G2; lia). split; [exact SO|].
  assert (EG : guard_start s = s) by (destruct s as [|c s]; [reflexivity|]; unfold guard_start; now rewrite (SO c s eq_refl)).
  rewrite EG in *. apply G4. exact L.
Qed.
Lemma guards_count : forall ss, (count (concat ss) CGJ <= count (concat (map (fun s => guard_end (guard_start s)) ss)) CGJ)%nat /\
  ((count (concat (map (fun s => guard_end (guard_start s)) ss)) CGJ <= count (concat ss) CGJ)%nat -> Forall (fun s => starts_ok s /\ ends_ok s) ss).
Proof.
  induction ss as [|s ss [I1 I2]]; [split; [apply le_n|constructor]|]. cbn [concat map]. rewrite !count_occ_app. destruct (guard_count s) as [G1 G2].
  split; [lia|]. intro L. constructor; [apply G2; lia|apply I2; lia].
Qed.
Lemma guard_forall : forall (P : N -> Prop) s, P CGJ -> Forall P s -> Forall P (guard_end (guard_start s)).
Proof.
  intros P s PC H. assert (G : Forall P (guard_start s)) by (destruct s as [|c s]; [constructor|]; unfold guard_start; destruct (is_basic_text_start c); [exact H|constructor; assumption]).
  unfold guard_end. destruct (last_opt _) as [c|]; [destruct (is_basic_text_end c)|]; try exact G. apply Forall_app. split; [exact G|constructor; [exact PC|constructor]].
Qed.

(** * Reading valid text with pushes *)
Lemma valid_missing : forall t, line_terminated t -> missing_line_end t = [].
Proof. intros t [->|[u ->]]; [reflexivity|]. unfold missing_line_end. now rewrite last_opt_snoc. Qed.
Theorem read_valid_pushed : forall nel lsps script text t, gives nel lsps script text -> stream_text script = t -> string_ok t -> line_terminated t ->
  Forall (fun c => is_assigned c = true) t -> (text = t <-> Forall (fun s => starts_ok s /\ ends_ok s) (segments script)).
Proof.
  intros nel lsps script text t (sizes & rs & j & rest & H & E & <-) ET OK LT A.
  destruct (ok_no_bom _ OK) as [NB NB2]. pose proof OK as (SO & _ & _). pose proof SO as (_ & _ & AL). apply Forall_allowed_clean in AL.
  set (ss := segments script). set (rss := map (map (fun c : N => [c])) ss).
  assert (EC : concat ss = t) by (unfold ss; now rewrite segments_concat).
  assert (FC : Forall (fun s => all_clean s) ss) by (apply Forall_concat; now rewrite EC).
  assert (FA : Forall (Forall (fun c => is_assigned c = true)) ss) by (apply Forall_concat; now rewrite EC).
  assert (SR : segments_read script = ss).
  { unfold segments_read. fold ss. destruct ss as [|s r]; [reflexivity|]. f_equal. destruct s as [|c s]; [reflexivity|]. cbn. change 0xFEFF with BOM.
    destruct (c =? BOM) eqn:EB; [|reflexivity]. apply N.eqb_eq in EB. subst c. elim (NB2 (s ++ concat r)). now rewrite <- EC. }
  assert (F : Forall2 (replaced true (char_rep nel lsps)) (segments_read script) rss).
  { rewrite SR. unfold rss. clear - FC. induction FC as [|s r HS FC IH]; cbn; constructor; auto. now apply clean_replaced_any. }
  set (g := concat (map (fun s => guard_end (guard_start s)) ss)).
  assert (T : pushed_text rss = g).
  { unfold pushed_text, rss. rewrite <- concat_map, final_singles, EC, valid_missing, app_nil_r by exact LT. unfold g. f_equal. rewrite map_map. apply map_ext. intro s. unfold guarded. now rewrite concat_singles. }
  assert (GA : Forall (fun c => is_assigned c = true) g).
  { unfold g. clear - FA. induction FA as [|s r HS FA IH]; [constructor|]. cbn. apply Forall_app. split; [|exact IH]. apply guard_forall; [vm_compute; reflexivity|exact HS]. }
  assert (GC : all_clean g).
  { unfold g. clear - FC. induction FC as [|s r HS FC IH]; [constructor|]. cbn. apply Forall_app. split; [|exact IH]. apply guard_forall; [exact clean_CGJ|exact HS]. }
  assert (BV : bom_visible script) by (left; intro u; rewrite ET; apply NB2).
  assert (U : unguarded_text (pushed_text rss)) by (rewrite T; now apply assigned_unguarded).
  rewrite (session_pushed _ _ _ _ _ _ _ _ H E BV F U), T.
  split.
  - intro EQ. apply (proj2 (guards_count ss)). fold g. rewrite EC, <- EQ. now apply pipeline_count_le.
  - intro FO. assert (EG : g = t).
    { unfold g. rewrite <- EC. clear - FO. induction FO as [|s r [HS HE] FO IH]; [reflexivity|]. cbn. now rewrite guards_id, IH. }
    rewrite EG. apply pipeline_fix; [exact AL|exact (proj2 (proj1 (substr_ok_iff _) (proj2 (substr_spec _) SO)))|]. apply prec_ok_spec. now apply assigned_preceded.
Qed.
Theorem read_again_pushed : forall nel lsps nel2 lsps2 script script2 text text2, gives nel lsps script text -> gives nel2 lsps2 script2 text2 ->
  stream_text script2 = text -> Forall (fun c => is_assigned c = true) text ->
  (text2 = text <-> Forall (fun s => starts_ok s /\ ends_ok s) (segments script2)).
Proof.
  intros nel lsps nel2 lsps2 script script2 text text2 (z & rs & j & rest & H & E & <-) G2 ES A.
  destruct (session_is_text_buffers _ _ _ _ _ _ _ H E) as [OK LT]. now apply (read_valid_pushed nel2 lsps2).
Qed.

(** * The pushes that a reader reports *)
Lemma reads_prefix : forall a sizes i script b j rest, reads i script sizes = (a ++ b, j, rest) -> exists sizes1 j1 rest1, reads i script sizes1 = (a, j1, rest1).
Proof.
  induction a as [|x a IH]; intros sizes i script b j rest H; [exists [], i, script; reflexivity|].
  destruct sizes as [|z sizes]; cbn [reads] in H; [discriminate|]. destruct (read i script z) as [[[r cs] i1] sc1] eqn:ER. destruct (reads i1 sc1 sizes) as [[rs1 j1] rest1] eqn:E1.
  inversion H; subst. destruct (IH _ _ _ _ _ _ E1) as (s1 & j2 & r2 & E2). exists (z :: s1), j2, r2. cbn [reads]. now rewrite ER, E2.
Qed.
Lemma push_ends : forall nel lsps script sizes a n cs b j rest, reads (new_input nel lsps) script sizes = (a ++ (ROk n Push, cs) :: b, j, rest) -> ends_ok (delivered a ++ cs).
Proof.
  intros nel lsps script sizes a n cs b j rest H.
  assert (H' : reads (new_input nel lsps) script sizes = ((a ++ [(ROk n Push, cs)]) ++ b, j, rest)) by now rewrite <- app_assoc.
  destruct (reads_prefix _ _ _ _ _ _ _ H') as (z & j1 & rest1 & R). clear H H' sizes j rest b.
  destruct z as [|z b _] using rev_ind; [cbn in R; now destruct a|].
  destruct (reads_spec _ _ _ _ _ _ (wf_new nel lsps) R) as (_ & _ & _ & evs & new & _ & FD & AV).
  destruct (abs_new nel lsps) as [A0 V0]. rewrite A0 in FD. rewrite V0 in AV. cbn [app nel_compat lsps_compat new_input] in FD, AV.
  destruct (reads_snoc _ _ _ _ _ _ _ R) as (rs1 & j0 & sc1 & r & cs' & R1 & R2 & E). apply app_inj_tail in E. destruct E as [<- E]. injection E as <- <-.
  destruct (reads_spec _ _ _ _ _ _ (wf_new nel lsps) R1) as (W1 & _).
  assert (A : avail j1 = []).
  { destruct (read_spec _ _ _ _ _ _ _ W1 R2) as (_ & _ & _ & C).
    destruct C as [(E & _)|[(E & _)|[(E & _)|(raw & s & nw & cs2 & _ & _ & _ & _ & _ & _ & _ & [(_ & A & _)|(E & _)])]]]; try discriminate E. exact A. }
  rewrite A, app_nil_r in AV. subst new. pose proof (i_end _ _ (feed_inv _ _ _ _ _ _ _ ainv_new FD)) as IE. cbn [app] in IE.
  unfold delivered in IE. rewrite flat_map_app in IE. cbn [flat_map snd] in IE. rewrite app_nil_r in IE. fold (delivered a) in IE.
  intros t c E. rewrite E in IE. destruct IE as [IE|(u & x & IE & BX)]; [now destruct t|]. apply app_inj_tail in IE. destruct IE as [_ <-]. now apply boundary_end.
Qed.
Lemma ends_app_r : forall a b, ends_ok (a ++ b) -> ends_ok b.
Proof. intros a b H t c ->. apply (H (a ++ t)). now rewrite app_assoc. Qed.
Lemma layer_ends : forall rs D, ends_once rs -> ends_ok (D ++ delivered rs) -> (forall a n cs b, rs = a ++ (ROk n Push, cs) :: b -> ends_ok (D ++ delivered a ++ cs)) ->
  exists s r, segments (layer rs) = s :: r /\ ends_ok (D ++ s) /\ Forall ends_ok r.
Proof.
  intros rs D (rs' & n & cs & -> & F). revert D. induction F as [|[x c] rs' (m & s & E & NE) F IH]; intros D HE HP.
  - exists cs, []. unfold delivered in HE. cbn in *. rewrite app_nil_r in HE. auto.
  - cbn [fst] in E. subst x.
    assert (HE' : ends_ok ((D ++ c) ++ delivered (rs' ++ [(ROk n End, cs)]))) by (rewrite <- app_assoc; exact HE).
    destruct (IH (D ++ c) HE') as (s0 & r & E0 & E1 & E2).
    { intros a n0 cs0 b EA. rewrite <- app_assoc. specialize (HP ((ROk m s, c) :: a) n0 cs0 b). cbn [delivered flat_map snd] in HP. fold (delivered a) in HP.
      rewrite <- app_assoc in HP. apply HP. cbn [app]. now rewrite EA. }
    unfold layer in *. cbn [app map fst snd]. destruct s; [| |congruence]; cbn [segments]; rewrite E0.
    + exists (c ++ s0), r. split; [reflexivity|]. now rewrite app_assoc.
    + exists c, (s0 :: r). split; [reflexivity|]. split.
      * apply (HP [] m c (rs' ++ [(ROk n End, cs)])). reflexivity.
      * constructor; [now apply ends_app_r in E1|exact E2].
Qed.
Theorem layered_pushed : forall nel lsps nel2 lsps2 script sizes rs j rest text2, reads (new_input nel lsps) script sizes = (rs, j, rest) -> ends_once rs ->
  gives nel2 lsps2 (layer rs) text2 -> Forall (fun c => is_assigned c = true) (delivered rs) ->
  (text2 = delivered rs <-> Forall starts_ok (segments (layer rs))).
Proof.
  intros nel lsps nel2 lsps2 script sizes rs j rest text2 H EO G2 A.
  assert (RE : reached_end rs) by (destruct EO as (rs' & n & cs & -> & _); now exists rs', n, cs).
  destruct (session_is_text_buffers _ _ _ _ _ _ _ H RE) as [OK LT].
  rewrite (read_valid_pushed _ _ _ _ _ G2 (layer_text _ EO) OK LT A).
  destruct (layer_ends rs [] EO) as (s & r & ES & E1 & E2).
  - apply OK.
  - intros a n cs b ->. exact (push_ends _ _ _ _ _ _ _ _ _ _ H).
  - rewrite ES. cbn [app] in E1. split; intro F.
    + eapply Forall_impl; [|exact F]. now intros x [K _].
    + apply Forall_forall. intros x HX. rewrite Forall_forall in F. split; [now apply F|]. destruct HX as [<-|HX]; [exact E1|]. rewrite Forall_forall in E2. now apply E2.
Qed.
