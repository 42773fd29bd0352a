(** A line whose end has been read is not held back (C76). *)
From Coq Require Import NArith Arith List Bool Lia ZifyBool ZifyNat ZifyN.
From Verif Require Import Base Ucd Norm Chars TextTables TextUtils Utf8 Input UcdFacts NormFacts CharFacts SpecText TextFacts PipelineFacts IsoFacts Utf8Facts ReadFacts ReadInv ReadSession
  SpecRead ReadChunk SpecEscape EscapeFacts EscapeRun ReadProps SpecConv ReadMore ScalarFacts WriteFacts SearchProps FuzzProps CatProps SpecCat SpecPush PushProps SpecPrompt PromptProps.
Import ListNotations.
Local Open Scope N_scope.
Arguments N.eqb : simpl never.

Definition plain (t : state) : Prop := match t with Ground _ | Cr | Ff => True | _ => False end.
Lemma tstep_plain : forall nel lsps x c, plain (snd x) -> c <> ESC -> plain (snd (snd (tstep nel lsps x c))) /\ (c = LF -> snd (snd (tstep nel lsps x c)) = Ground true).
Proof.
  intros nel lsps [e t] c P NE. cbn [snd] in P. apply N.eqb_neq in NE. split.
  - unfold tstep, step, stub, step_ground, ground_char. cbn [snd st fst]. destruct t; try destruct P; rewrite ?NE;
    repeat match goal with |- context [if ?b then _ else _] => destruct b end; cbn; exact I.
  - intros ->. unfold tstep, step, stub, step_ground. cbn [snd st fst]. destruct t; try destruct P; reflexivity.
Qed.
Lemma trans_plain : forall nel lsps cs x, plain (snd x) -> ~ In ESC cs -> plain (snd (snd (trans nel lsps x cs))) /\ (last_opt cs = Some LF -> snd (snd (trans nel lsps x cs)) = Ground true).
Proof.
  intros nel lsps cs x P. induction cs as [|c cs IH] using rev_ind; intro NE; [split; [exact P|discriminate]|].
  destruct IH as [IH _]; [intro K; apply NE; apply in_or_app; now left|]. rewrite trans_app, last_opt_snoc. destruct (trans nel lsps x cs) as [o x1]. cbn [trans snd] in *.
  destruct (tstep_plain nel lsps x1 c IH) as [T1 T2]; [intros ->; apply NE; apply in_or_app; right; now left|].
  destruct (tstep nel lsps x1 c) as [o2 x2]. cbn [snd] in *. split; [exact T1|]. intro E. injection E as E. exact (T2 E).
Qed.
Lemma fin_plain : forall s l x, plain (snd x) -> plain (snd (snd (fin s l x))) /\ (snd x = Ground true -> snd (snd (fin s l x)) = Ground true).
Proof.
  intros s l [e t] P. unfold fin. destruct s; cbn [is_active is_end snd fst] in *; [split; auto| |]; destruct t as [[]| | | | | | |]; try destruct P; cbn; (split; [exact I|]); auto; discriminate.
Qed.
Lemma feed_plain : forall nel lsps evs new a, feed nel lsps abs0 evs = (new, a) -> ~ In ESC (flat_map fst evs) ->
  plain (snd (a_ts a)) /\ (last_opt (flat_map fst evs) = Some LF -> snd (a_ts a) = Ground true).
Proof.
  intros nel lsps evs. induction evs as [|[raw s] evs IH] using rev_ind; intros new a H NE; [cbn in H; injection H as _ <-; split; [exact I|discriminate]|].
  rewrite flat_map_app in *. cbn [flat_map fst] in *. rewrite app_nil_r in *. rewrite last_opt_app.
  assert (NE1 : ~ In ESC (flat_map fst evs)) by (intro K; apply NE, in_or_app; now left). assert (NE2 : ~ In ESC raw) by (intro K; apply NE, in_or_app; now right).
  rewrite feed_app in H. destruct (feed nel lsps abs0 evs) as [n1 a1] eqn:E1. cbn [feed] in H. destruct (absorb nel lsps a1 raw s) as [n2 a2] eqn:E2. injection H as _ <-.
  destruct (IH _ _ eq_refl NE1) as [P1 L1]. clear IH.
  assert (B : body (a_start a1) raw = raw \/ exists c, raw = c :: body (a_start a1) raw /\ c <> LF).
  { destruct (a_start a1); [|left; reflexivity]. destruct raw as [|c raw]; [left; reflexivity|]. cbn [body]. destruct (N.eqb_spec c BOM) as [->|]; [right|left; reflexivity]. exists BOM. split; [reflexivity|discriminate]. }
  set (bd := body (a_start a1) raw) in *. assert (NEB : ~ In ESC bd) by (destruct B as [->|(c & E & _)]; [exact NE2|intro K; apply NE2; rewrite E; now right]).
  unfold absorb, pushed in E2. fold bd in E2. destruct (trans_plain nel lsps bd (a_ts a1) P1 NEB) as [T1 T2]. destruct (trans nel lsps (a_ts a1) bd) as [o x] eqn:ET. cbn [snd] in T1, T2.
  destruct (fin_plain s (last_opt (a_res a1 ++ o)) x T1) as [F1 F2]. destruct (fin s (last_opt (a_res a1 ++ o)) x) as [o2 x2]. injection E2 as _ <-. cbn [a_ts snd] in *.
  split; [exact F1|]. intro L. apply F2. clearbody bd.
  destruct raw as [|c0 raw0].
  - assert (EB : bd = []) by (destruct B as [->|(c & E & _)]; [reflexivity|discriminate]). rewrite EB in ET. cbn in ET. injection ET as _ <-. exact (L1 L).
  - apply T2. assert (LR : last_opt (c0 :: raw0) = Some LF) by (destruct (exists_last (l := c0 :: raw0)) as (w & z & EW); [discriminate|]; rewrite EW, last_opt_snoc in *; exact L).
    destruct B as [->|(c & E & NC)]; [exact LR|]. rewrite E in LR.
    destruct bd as [|z bd _] using rev_ind; [cbn in LR; injection LR as LR; congruence|]. rewrite last_opt_snoc. rewrite app_comm_cons, last_opt_snoc in LR. exact LR.
Qed.

(** When the last character is a line end *)
Theorem line_ended : forall nel lsps used rest sizes rs j held, holds nel lsps used rest sizes rs j held -> left_room sizes rs ->
  ~ In 0x1B (stream_text used) -> last_opt (stream_text used) = Some 0xA -> held = [].
Proof.
  intros nel lsps used rst sizes rs j held H L NE LL. destruct (room_state _ _ _ _ _ _ _ _ H L) as (W & A & I & [(-> & _)|(evs & E1 & _ & E2 & E)]); [reflexivity|].
  destruct (absorb_last _ _ _ _ _ I E) as [(-> & _)|(y & _ & _ & NG & _)]; [reflexivity|]. exfalso. apply NG.
  assert (ET : stream_text used = flat_map fst evs) by (rewrite <- evs_text, E1, flat_map_app; cbn [flat_map fst]; now rewrite !app_nil_r).
  rewrite ET in NE, LL. exact (proj2 (feed_plain _ _ _ _ _ E2 NE) LL).
Qed.

(** * Exactly when nothing is held back *)
Definition ends_line (nel lsps : bool) (c : N) : bool := (c =? 0xA) || (nel && (c =? 0x85)) || (lsps && ((c =? 0x2028) || (c =? 0x2029))).
Lemma ends_line_spec : forall nel lsps c, ends_line nel lsps c = true <-> c = 0xA \/ (nel = true /\ c = 0x85) \/ (lsps = true /\ (c = 0x2028 \/ c = 0x2029)).
Proof. intros nel lsps c. unfold ends_line. rewrite !orb_true_iff, !andb_true_iff, orb_true_iff, !N.eqb_eq. tauto. Qed.
Lemma tstep_exact : forall nel lsps x c, plain (snd x) -> c <> ESC -> is_ground_nl (snd (snd (tstep nel lsps x c))) = ends_line nel lsps c.
Proof.
  intros nel lsps [e t] c P NE. cbn [snd] in P. apply N.eqb_neq in NE.
  assert (SG : forall i, nel_compat i = nel -> lsps_compat i = lsps -> is_ground_nl (st (step_ground i c)) = ends_line nel lsps c).
  { intros i E1 E2. unfold step_ground, ends_line. rewrite NE. destruct (N.eqb_spec c LF) as [->|N1]; [reflexivity|]. destruct (N.eqb_spec c CR) as [->|N2]; [destruct nel, lsps; reflexivity|].
    destruct (N.eqb_spec c FF) as [->|N3]; [destruct nel, lsps; reflexivity|]. unfold ground_char. cbn [st is_ground_nl]. rewrite E1, E2. replace (c =? 0xA) with false by (symmetry; now apply N.eqb_neq). reflexivity. }
  unfold tstep, step, stub. cbn [snd st fst]. destruct t; try destruct P; cbn [snd fst].
  - now apply SG.
  - destruct (N.eqb_spec c LF) as [->|N1]; [reflexivity|]. now apply SG.
  - destruct (N.eqb_spec c FF) as [->|N1]; [destruct nel, lsps; reflexivity|]. now apply SG.
Qed.
Lemma trans_exact : forall nel lsps cs x, plain (snd x) -> ~ In ESC cs -> is_ground_nl (snd (snd (trans nel lsps x cs))) = match last_opt cs with Some c => ends_line nel lsps c | None => is_ground_nl (snd x) end.
Proof.
  intros nel lsps cs x P NE. destruct cs as [|c cs _] using rev_ind; [reflexivity|]. rewrite trans_app, last_opt_snoc.
  destruct (trans_plain nel lsps cs x P) as [T _]; [intro K; apply NE, in_or_app; now left|]. destruct (trans nel lsps x cs) as [o x1]. cbn [trans snd] in *.
  pose proof (tstep_exact nel lsps x1 c T) as TE. destruct (tstep nel lsps x1 c) as [o2 x2]. apply TE. intros ->. apply NE, in_or_app. right. now left.
Qed.
Lemma feed_exact : forall nel lsps evs new a, feed nel lsps abs0 evs = (new, a) -> ~ In ESC (flat_map fst evs) -> Forall (fun e => snd e = Active) evs -> last_opt (flat_map fst evs) <> Some BOM ->
  is_ground_nl (snd (a_ts a)) = match last_opt (flat_map fst evs) with Some c => ends_line nel lsps c | None => true end.
Proof.
  intros nel lsps evs. induction evs as [|[raw s] evs IH] using rev_ind; intros new a H NE FA NB; [cbn in H; injection H as _ <-; reflexivity|].
  apply Forall_app in FA. destruct FA as [FA FS]. inversion FS as [|? ? SA _]; subst. cbn [snd] in SA. subst s.
  rewrite flat_map_app in *. cbn [flat_map fst] in *. rewrite app_nil_r in *. rewrite last_opt_app in *.
  assert (NE1 : ~ In ESC (flat_map fst evs)) by (intro K; apply NE, in_or_app; now left). assert (NE2 : ~ In ESC raw) by (intro K; apply NE, in_or_app; now right).
  rewrite feed_app in H. destruct (feed nel lsps abs0 evs) as [n1 a1] eqn:E1. cbn [feed] in H. destruct (absorb nel lsps a1 raw Active) as [n2 a2] eqn:E2. injection H as _ <-.
  destruct (feed_plain _ _ _ _ _ E1 NE1) as [P1 _]. specialize (IH _ _ eq_refl NE1 FA).
  assert (B : body (a_start a1) raw = raw \/ raw = BOM :: body (a_start a1) raw).
  { destruct (a_start a1); [|left; reflexivity]. destruct raw as [|c raw]; [left; reflexivity|]. cbn [body]. destruct (N.eqb_spec c BOM) as [->|]; [now right|left; reflexivity]. }
  unfold absorb, pushed in E2. set (bd := body (a_start a1) raw) in *. assert (NEB : ~ In ESC bd) by (destruct B as [->|E]; [exact NE2|intro K; apply NE2; rewrite E; now right]).
  pose proof (trans_exact nel lsps bd (a_ts a1) P1 NEB) as T. destruct (trans nel lsps (a_ts a1) bd) as [o x] eqn:ET. cbn in E2. injection E2 as _ <-. cbn [a_ts snd] in *. rewrite T. clearbody bd.
  assert (LO : forall A (l : list A) z, last_opt (l ++ [z]) = Some z) by (intros; apply last_opt_snoc).
  destruct bd as [|z bd _] using rev_ind.
  - cbn [last_opt]. destruct B as [<-|E]; [cbn [last_opt] in *; exact (IH NB)|]. exfalso. apply NB. rewrite E. reflexivity.
  - rewrite last_opt_snoc. destruct B as [<-|E]; [now rewrite last_opt_snoc|]. rewrite E, app_comm_cons, last_opt_snoc. reflexivity.
Qed.
Lemma no_push_active : forall used evs, no_push used -> (forall cs, ~ In (Chunk cs End) used) -> evs_of used = evs ++ [([], End)] -> Forall (fun e => snd e = Active) evs.
Proof.
  induction used as [|[cs s|] used IH]; intros evs NP NN E.
  - destruct evs as [|e evs]; [constructor|]. cbn in E. injection E as _ E. destruct evs; discriminate.
  - destruct s; [|exfalso; exact (NP cs (or_introl eq_refl))|exfalso; exact (NN cs (or_introl eq_refl))].
    cbn [evs_of] in E. destruct evs as [|e evs]; [cbn in E; discriminate|]. cbn [app] in E. injection E as <- E. constructor; [reflexivity|]. apply IH; [intros c K; exact (NP c (or_intror K))|intros c K; exact (NN c (or_intror K))|exact E].
  - apply IH; [intros c K; exact (NP c (or_intror K))|intros c K; exact (NN c (or_intror K))|exact E].
Qed.
Lemma room_open : forall nel lsps used rst sizes rs j held, holds nel lsps used rst sizes rs j held -> left_room sizes rs -> rst <> [] ->
  ainv (delivered rs) (abs_of j) /\ exists evs, evs_of used = evs ++ [([], End)] /\ (forall cs, ~ In (Chunk cs End) used) /\ feed nel lsps abs0 evs = (delivered rs, abs_of j) /\ held = fst (absorb nel lsps (abs_of j) [] End).
Proof.
  intros nel lsps used rst sizes rs j held H L RN. destruct (room_state _ _ _ _ _ _ _ _ H L) as (W & A & I & C). split; [exact I|]. destruct C as [_|C]; [|exact C]. destruct H as [H G].
    destruct (reads_spec _ _ _ _ _ _ (wf_new nel lsps) H) as (_ & _ & _ & evs & new & TK & FD & AV). destruct (abs_new nel lsps) as [A0 V0]. rewrite A0 in FD. rewrite V0 in AV. cbn [app nel_compat lsps_compat new_input] in FD, AV.
    rewrite A, app_nil_r in AV. subst new. destruct (took_suffix _ _ _ TK) as [EE|(u & E1 & E2 & E3)]; [destruct (took_end _ _ _ TK EE) as (k & _ & K); congruence|]. apply app_inv_tail in E1. subst u. exists evs. split; [exact E2|]. split; [exact E3|]. split; [exact FD|].
    apply gives_converted in G. unfold converted_stream in G. rewrite E2, feed_app, FD in G. cbn [feed] in G. destruct (absorb nel lsps (abs_of j) [] End) as [n2 a2]. cbn [fst] in *. rewrite app_nil_r in G. now apply app_inv_head in G.
Qed.
Lemma open_held : forall nel lsps D a held, ainv D a -> held = fst (absorb nel lsps a [] End) -> held = [] <-> is_ground_nl (snd (a_ts a)) = true.
Proof.
  intros nel lsps D a held I E. destruct (absorb_last _ _ _ _ _ I E) as [(-> & _ & ->)|(y & -> & _ & NG & _)]; [now split|]. split; [intro K; destruct (pipeline _); discriminate|]. intro K. exfalso. apply NG. destruct (snd (a_ts a)) as [[]| | | | | | |]; try discriminate; reflexivity.
Qed.
Theorem line_ended_exact : forall nel lsps used rest sizes rs j held, holds nel lsps used rest sizes rs j held -> left_room sizes rs -> rest <> [] ->
  no_push used -> ~ In 0x1B (stream_text used) -> last_opt (stream_text used) <> Some 0xFEFF ->
  held = [] <-> stream_text used = [] \/ exists c, last_opt (stream_text used) = Some c /\ (c = 0xA \/ (nel = true /\ c = 0x85) \/ (lsps = true /\ (c = 0x2028 \/ c = 0x2029))).
Proof.
  intros nel lsps used rst sizes rs j held H L RN NP NE NB.
  pose proof (room_open _ _ _ _ _ _ _ _ H L RN) as RS.
  destruct RS as (I & evs & E1 & E3 & E2 & E).
  assert (ET : stream_text used = flat_map fst evs) by (rewrite <- evs_text, E1, flat_map_app; cbn [flat_map fst]; now rewrite !app_nil_r).
  pose proof (feed_exact _ _ _ _ _ E2 ltac:(rewrite <- ET; exact NE) (no_push_active _ _ NP E3 E1) ltac:(rewrite <- ET; exact NB)) as FE. rewrite <- ET in FE.
  assert (HG : held = [] <-> is_ground_nl (snd (a_ts (abs_of j))) = true).
  { exact (open_held _ _ _ _ _ I E). }
  rewrite HG, FE. destruct (stream_text used) as [|z t _] using rev_ind; [cbn; split; [now left|reflexivity]|]. rewrite last_opt_snoc. split.
  - intro K. right. exists z. split; [reflexivity|]. now apply ends_line_spec.
  - intros [K|(c & K & KE)]; [destruct t; discriminate|]. injection K as ->. now apply ends_line_spec.
Qed.

(** * The same for all sequences *)
Lemma tstep_cr : forall nel lsps x c, snd (snd (tstep nel lsps x c)) = Cr -> c = CR.
Proof.
  intros nel lsps [e t] c. destruct (N.eqb_spec c CR) as [|N]; [auto|]. intro H. exfalso. revert H. unfold tstep, step, stub, step_ground. cbn [snd st fst].
  apply N.eqb_neq in N. destruct t; rewrite ?N;
  repeat match goal with |- context [if ?b then _ else _] => destruct b end; cbn; discriminate.
Qed.
Lemma trans_cr : forall nel lsps cs x, snd (snd (trans nel lsps x cs)) = Cr -> (cs = [] /\ snd x = Cr) \/ last_opt cs = Some CR.
Proof.
  intros nel lsps cs x. destruct cs as [|c cs] using rev_ind; [now left|]. clear IHcs. rewrite trans_app. destruct (trans nel lsps x cs) as [o x1]. cbn [trans].
  pose proof (tstep_cr nel lsps x1 c) as T. destruct (tstep nel lsps x1 c) as [o2 x2]. cbn [snd] in *. intro H. right. rewrite last_opt_snoc. now rewrite T.
Qed.
Lemma feed_cr : forall nel lsps evs new a, feed nel lsps abs0 evs = (new, a) -> snd (a_ts a) = Cr -> last_opt (flat_map fst evs) = Some CR.
Proof.
  intros nel lsps evs. induction evs as [|[raw s] evs IH] using rev_ind; intros new a H F; [cbn in H; injection H as _ <-; discriminate|].
  rewrite feed_app in H. destruct (feed nel lsps abs0 evs) as [n1 a1] eqn:E1. cbn [feed] in H. destruct (absorb nel lsps a1 raw s) as [n2 a2] eqn:E2. injection H as _ <-.
  unfold absorb, pushed in E2. pose proof (trans_cr nel lsps (body (a_start a1) raw) (a_ts a1)) as T.
  destruct (trans nel lsps (a_ts a1) (body (a_start a1) raw)) as [o x]. destruct (fin s (last_opt (a_res a1 ++ o)) x) as [o2 x2] eqn:EF. injection E2 as _ <-. cbn [a_ts snd] in F, T.
  assert (FX : snd x = Cr).
  { destruct s; [cbn in EF; injection EF as _ <-; exact F| |]; exfalso; revert EF F; unfold fin; destruct x as [e t]; cbn [is_active is_end snd fst];
    destruct t as [[]| | | | | | |]; cbn [is_ground_nl snd]; intros K; injection K as _ <-; discriminate. }
  rewrite flat_map_app. cbn [flat_map fst]. rewrite app_nil_r, last_opt_app.
  assert (B : body (a_start a1) raw = raw \/ a1 = abs0).
  { destruct (a_start a1) eqn:ES; [right|left; reflexivity]. destruct evs as [|[r0 s0] evs] using rev_ind; [cbn in E1; injection E1 as _ <-; reflexivity|].
    exfalso. rewrite feed_app in E1. destruct (feed nel lsps abs0 evs) as [n3 a3]. cbn [feed] in E1. unfold absorb in E1. destruct (pushed nel lsps a3 r0 s0). injection E1 as _ <-. discriminate. }
  destruct (T FX) as [[B0 F1]|L].
  - destruct B as [B| ->]; [|discriminate]. rewrite B in B0. subst raw. cbn [last_opt]. exact (IH _ _ eq_refl F1).
  - assert (LR : last_opt raw = Some CR); [|now rewrite LR]. destruct B as [<-| ->]; [exact L|]. cbn in L. destruct raw as [|c raw]; [exact L|]. destruct (c =? BOM); [|exact L].
    change (c :: raw) with ([c] ++ raw). now rewrite last_opt_app, L.
Qed.
Lemma segments_push : forall used, (forall cs, ~ In (Chunk cs End) used) -> segments (used ++ [Chunk [] Push]) = segments used ++ [[]] /\ stream_text (used ++ [Chunk [] Push]) = stream_text used.
Proof.
  induction used as [|[c s|] used IH]; intro N; [split; reflexivity| |].
  - destruct IH as [I1 I2]; [intros x K; apply (N x); now right|]. destruct s; cbn [app segments stream_text]; rewrite ?I1, ?I2; [|split; reflexivity|exfalso; apply (N c); now left].
    split; [|reflexivity]. destruct (segments_prefix used) as (s0 & r0 & u0 & -> & _). reflexivity.
  - apply IH. intros x K. apply (N x). now right.
Qed.
Theorem line_ended_sequences : forall nel lsps used rest sizes rs j held rss, holds nel lsps used rest sizes rs j held -> left_room sizes rs -> rest <> [] ->
  bom_visible used -> Forall2 (replaced true (char_rep nel lsps)) (segments_read used) rss -> last_opt (stream_text used) <> Some 0xD ->
  held = [] <-> final_newline (concat rss) = [].
Proof.
  intros nel lsps used rst sizes rs j held rss H L RN BV F NC. destruct (room_open _ _ _ _ _ _ _ _ H L RN) as (I & evs & E1 & E3 & E2 & E). rewrite (open_held _ _ _ _ _ I E).
  assert (ET : stream_text used = flat_map fst evs) by (rewrite <- evs_text, E1, flat_map_app; cbn [flat_map fst]; now rewrite !app_nil_r).
  assert (NCR : snd (a_ts (abs_of j)) <> Cr) by (intro K; apply NC; rewrite ET; exact (feed_cr _ _ _ _ _ E2 K)).
  destruct (segments_push used E3) as [S1 S2]. set (used' := used ++ [Chunk [] Push]) in *.
  assert (EV : evs_of used' = (evs ++ [([], Push)]) ++ [([], End)]) by (unfold used'; rewrite (evs_of_app _ _ _ E1 E3), <- app_assoc; reflexivity).
  assert (NE : forall cs, ~ In (Chunk cs End) used') by (intros x K; apply in_app_or in K as [K|[K|[]]]; [exact (E3 x K)|discriminate]).
  assert (EP : ends_push used') by (right; exists used, []; reflexivity).
  assert (BV' : bom_visible used').
  { destruct BV as [BV|(c & cs & s & t & EU)]; [left; rewrite S2; exact BV|right]. exists c, cs, s, (t ++ [Chunk [] Push]). unfold used'. now rewrite EU. }
  assert (SR : segments_read used' = segments_read used ++ [[]]) by (unfold segments_read; rewrite S1; destruct (segments_prefix used) as (s & r & u & -> & _); reflexivity).
  destruct (feed nel lsps abs0 (evs ++ [([], Push)])) as [new' a'] eqn:FJ.
  assert (SA : snd (a_ts a') = snd (snd (fin Push (last_opt (a_res (abs_of j) ++ [])) (a_ts (abs_of j))))).
  { rewrite feed_app, E2 in FJ. cbn [feed] in FJ. unfold absorb, pushed in FJ. assert (B : body (a_start (abs_of j)) [] = []) by (destruct (a_start (abs_of j)); reflexivity). rewrite B in FJ. cbn [trans] in FJ.
    destruct (fin Push (last_opt (a_res (abs_of j) ++ [])) (a_ts (abs_of j))) as [o2 x2]. injection FJ as _ <-. reflexivity. }
  rewrite feed_restart in FJ by (now destruct evs).
  assert (ER : evs_of (strip used') = restart (evs ++ [([], Push)]) ++ [([], End)]) by (rewrite <- evs_strip, EV; now destruct evs as [|[? ?] ?]).
  destruct (feed_ts nel lsps _ [] (true, Ground true) _ _ FJ) as [_ TS].
  rewrite (tr_merge nel lsps _ _ (strip_push _ EP) (strip_no_end _ NE) ER), segments_strip in TS by exact BV'.
  rewrite SR, removelast_last in TS. rewrite (tr_pushes _ _ _ _ [] true F) in TS by (intros t x K; now destruct t).
  rewrite final_last. rewrite TS in SA. cbn [snd] in SA. destruct (a_ts (abs_of j)) as [e t]. cbn [snd] in *. unfold fin in SA. cbn [is_active is_end snd fst] in SA.
  destruct t as [[]| | | | | | |]; try congruence; cbn in SA; injection SA as ->; cbn; split; try reflexivity; discriminate.
Qed.
