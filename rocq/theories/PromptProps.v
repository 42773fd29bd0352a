(** What a reader holds back, and when (C08, C10, C42, C76). *)
From Coq Require Import NArith Arith List Bool Lia ZifyBool ZifyNat ZifyN.
From Verif Require Import Base Ucd Norm Chars TextTables TextUtils Utf8 Input UcdFacts NormFacts CharFacts SpecText TextFacts PipelineFacts IsoFacts Utf8Facts ReadFacts ReadInv ReadSession
  SpecRead ReadChunk SpecEscape EscapeFacts EscapeRun ReadProps SpecConv ReadMore ScalarFacts WriteFacts SearchProps FuzzProps CatProps SpecCat SpecPush PushProps SpecPrompt.
Import ListNotations.
Local Open Scope N_scope.
Arguments N.add : simpl never.
Arguments N.leb : simpl never.
Arguments N.ltb : simpl never.
Arguments N.eqb : simpl never.
Local Opaque pipeline.

(** * The reads of a session *)
Lemma took_suffix : forall sc evs sc', took sc evs sc' ->
  (exists raw, In (raw, End) evs) \/ exists u, sc = u ++ sc' /\ evs_of u = evs ++ [([], End)] /\ forall cs, ~ In (Chunk cs End) u.
Proof.
  induction 1 as [sc|sc raw s sc1 evs sc2 EI TK IH|sc sc1 evs sc2 EI TK IH].
  - right. exists []. auto.
  - destruct IH as [[r IH]|(u & E1 & E2 & E3)]; [left; exists r; now right|].
    destruct sc as [|[cs s'|] t]; cbn in EI; [|destruct s'|discriminate]; injection EI as <- <- <-.
    + left. exists []. now left.
    + right. exists (Chunk cs Active :: u). rewrite E1. cbn [evs_of]. rewrite E2. split; [reflexivity|]. split; [reflexivity|]. intros c [K|K]; [discriminate|exact (E3 c K)].
    + right. exists (Chunk cs Push :: u). rewrite E1. cbn [evs_of]. rewrite E2. split; [reflexivity|]. split; [reflexivity|]. intros c [K|K]; [discriminate|exact (E3 c K)].
    + left. exists cs. now left.
  - destruct IH as [IH|(u & E1 & E2 & E3)]; [now left|]. destruct sc as [|[cs s'|] t]; cbn in EI; [discriminate|destruct s'; discriminate|]. injection EI as <-.
    right. exists (Fail :: u). rewrite E1. split; [reflexivity|]. split; [exact E2|]. intros c [K|K]; [discriminate|exact (E3 c K)].
Qed.
Lemma gives_converted : forall nel lsps script t, gives nel lsps script t -> t = converted_stream nel lsps script.
Proof. intros nel lsps script t (sizes & rs & j & rest & H & E & <-). now destruct (session_end _ _ _ _ _ _ _ H E). Qed.

Lemma avail_queue : forall j, wf j -> avail j = [] -> queue j = residue j.
Proof.
  intros j W A. unfold residue, rest. unfold avail in A. apply app_eq_nil in A. destruct A as [A1 A2].
  unfold ready in A1. apply app_eq_nil in A1. destruct A1 as [_ A1].
  rewrite <- (firstn_skipn (quick j) (queue j)), A1 at 1. cbn [app].
  rewrite (blocks_split (skipn (quick j) (queue j))) at 1.
  destruct (complete (skipn (quick j) (queue j))) as [|y l] eqn:EC; [reflexivity|].
  exfalso. unfold rest in A2. rewrite EC in A2. revert A2. apply pipeline_nonnil. discriminate.
Qed.

(** after a call that left room: the abstract state *)
Lemma room_state : forall nel lsps used rest sizes rs j held, holds nel lsps used rest sizes rs j held -> left_room sizes rs ->
  wf j /\ avail j = [] /\ ainv (delivered rs) (abs_of j) /\
  ((held = [] /\ residue j = [] /\ st j = Ground true) \/
   exists evs, evs_of used = evs ++ [([], End)] /\ (forall cs, ~ In (Chunk cs End) used) /\ feed nel lsps abs0 evs = (delivered rs, abs_of j) /\ held = fst (absorb nel lsps (abs_of j) [] End)).
Proof.
  intros nel lsps used rst sizes rs j held [H G] (sizes' & b & rs' & n & s & cs & -> & -> & L). apply gives_converted in G.
  destruct (reads_spec _ _ _ _ _ _ (wf_new nel lsps) H) as (W & _ & _ & evs & new & TK & FD & AV).
  destruct (abs_new nel lsps) as [A0 V0]. rewrite A0 in FD. rewrite V0 in AV. cbn [app nel_compat lsps_compat new_input] in FD, AV.
  destruct (reads_snoc _ _ _ _ _ _ _ H) as (rs1 & j1 & sc1 & r & cs' & R1 & R2 & E). apply app_inj_tail in E. destruct E as [<- E]. injection E as <- <-.
  destruct (reads_spec _ _ _ _ _ _ (wf_new nel lsps) R1) as (W1 & _). pose proof (room_left _ _ _ _ _ _ _ _ W1 R2 L) as A.
  rewrite A, app_nil_r in AV. subst new. split; [exact W|]. split; [exact A|].
  pose proof (feed_inv _ _ _ _ _ _ _ ainv_new FD) as AI. cbn [app] in AI. split; [exact AI|].
  destruct (took_suffix _ _ _ TK) as [EE|(u & E1 & E2 & E3)].
  - left. destruct (took_end _ _ _ TK EE) as (k & E & ->). rewrite app_nil_r in E.
    rewrite E, feed_app in FD. unfold converted_stream in G. destruct (feed nel lsps abs0 (evs_of used)) as [nw af] eqn:EF.
    destruct (feed_evs_final _ _ _ _ _ EF) as (F1 & F2 & _ & _).
    pose proof (feed_finals nel lsps k af F1 F2) as FF. destruct (feed nel lsps af (repeat ([], End) k)) as [nk ak] eqn:EK.
    cbn in FF. subst nk. rewrite app_nil_r in FD. injection FD as FD FA. cbn [fst] in G. rewrite FD in G.
    assert (SK : forall k a a', a_res a = [] -> snd (a_ts a) = Ground true -> snd (feed nel lsps a (repeat ([], End) k)) = a' -> a_res a' = [] /\ snd (a_ts a') = Ground true).
    { clear. induction k as [|k IH]; intros a a' H1 H2 <-; [auto|]. cbn [repeat feed]. rewrite absorb_final by assumption.
      specialize (IH (mkabs [] (true, Ground true) false) _ eq_refl eq_refl eq_refl). destruct (feed _ _ _ _). exact IH. }
    destruct (SK k af ak F1 F2) as [S1 S2]; [now rewrite EK|]. rewrite FA in S1, S2. split; [|split; [exact S1|exact S2]].
    rewrite <- (app_nil_r (delivered _)) in G at 2. now apply app_inv_head in G.
  - right. apply app_inv_tail in E1. subst u. exists evs. split; [exact E2|]. split; [exact E3|]. split; [exact FD|].
    unfold converted_stream in G. rewrite E2, feed_app, FD in G. cbn [feed] in G. destruct (absorb nel lsps (abs_of j) [] End) as [n2 a2]. cbn [fst] in *.
    rewrite app_nil_r in G. now apply app_inv_head in G.
Qed.

(** what the end adds *)
Lemma fin_shape : forall res e t, is_ground_nl t = false ->
  exists y x, fin End (last_opt res) (e, t) = (y ++ [LF], x) /\ ~ In LF y /\ (t <> Ff -> res = [] -> y = []).
Proof.
  intros res e t EG. unfold fin. cbn [is_active is_end snd fst].
  assert (GE : exists y, (match last_opt res with Some y => if is_basic_text_end y then [] else [CGJ] | None => [] end) = y /\ ~ In LF y /\ (res = [] -> y = [])).
  { eexists. split; [reflexivity|]. split; [|intros ->; reflexivity]. destruct (last_opt res) as [z|]; [destruct (is_basic_text_end z)|]; intros K; [destruct K|destruct K as [K|[]]; discriminate|destruct K]. }
  destruct GE as (y & Y0 & Y1 & Y2).
  destruct t as [[]| | | | | | |]; try discriminate; cbn [snd is_ground_nl fst app last_opt]; try (rewrite Y0; exists y; eexists; split; [reflexivity|auto]; fail).
  - exists [], (false, Ground true). cbn. split; [|auto]. change (is_basic_text_end LF) with (is_basic_text_end 0xA). now rewrite (boundary_end 0xA) by (left; reflexivity).
  - exists [SP], (false, Ground true). cbn. split; [|split; [intros [K|[]]; discriminate|congruence]]. assert (SE : is_basic_text_end SP = true) by (vm_compute; reflexivity). now rewrite SE.
Qed.
Lemma absorb_last : forall nel lsps D a held, ainv D a -> held = fst (absorb nel lsps a [] End) ->
  (held = [] /\ a_res a = [] /\ snd (a_ts a) = Ground true) \/
  (exists y, held = pipeline (a_res a ++ y) ++ [LF] /\ ~ In LF (a_res a ++ y) /\ snd (a_ts a) <> Ground true /\ (snd (a_ts a) <> Ff -> a_res a = [] -> y = [])).
Proof.
  intros nel lsps D [res [e t] start] held I ->. unfold absorb, pushed. cbn [a_res a_ts a_start].
  assert (B : body start [] = []) by (destruct start; reflexivity). rewrite B. cbn [trans]. rewrite app_nil_r.
  pose proof (i_nb _ _ I) as NB. cbn [a_res] in NB. unfold no_boundary in NB.
  assert (NL : ~ In LF res). { intro K. rewrite Forall_forall in NB. apply NB in K. discriminate. }
  destruct (is_ground_nl t) eqn:EG.
  - left. destruct t as [[]| | | | | | |]; try discriminate. destruct (t_nl _ _ _ (i_t _ _ I) eq_refl) as [[E _]|[u E]]; cbn [a_res] in E.
    + subst res. cbn. rewrite pipeline_nil. auto.
    + exfalso. apply NL. rewrite E. apply in_or_app. right. now left.
  - right. destruct (fin_shape res e t EG) as (y & x & -> & Q2 & Q3).
    cbn [app fst snd]. exists y. rewrite app_assoc. rewrite (proj1 (complete_snoc (res ++ y) LF ltac:(now left))).
    assert (PL : pipeline ((res ++ y) ++ [LF]) = pipeline (res ++ y) ++ [LF]) by (rewrite pipeline_LF, pipeline_nil; reflexivity).
    split; [exact PL|]. split; [intro K; apply in_app_or in K as [K|K]; auto|]. split; [intros ->; discriminate|exact Q3].
Qed.

(** * C76 *)
Theorem lines_prompt : forall nel lsps used rest sizes rs j held, holds nel lsps used rest sizes rs j held -> left_room sizes rs ->
  held = [] \/ exists m, held = m ++ [0xA] /\ ~ In 0xA m.
Proof.
  intros nel lsps used rst sizes rs j held H L. destruct (room_state _ _ _ _ _ _ _ _ H L) as (W & A & I & [(-> & _)|(evs & _ & _ & _ & E)]); [now left|].
  destruct (absorb_last _ _ _ _ _ I E) as [(-> & _)|(y & -> & N & _)]; [now left|]. right. exists (pipeline (a_res (abs_of j) ++ y)). split; [reflexivity|]. now apply pipeline_no_lf.
Qed.

(** * C42 *)
Lemma tstep_ff : forall nel lsps x c, snd (snd (tstep nel lsps x c)) = Ff -> c = FF.
Proof.
  intros nel lsps [e t] c. destruct (N.eqb_spec c FF) as [|N]; [auto|]. intro H. exfalso. revert H. unfold tstep, step, stub, step_ground. cbn [snd st fst].
  apply N.eqb_neq in N. destruct t; rewrite ?N;
  repeat match goal with |- context [if ?b then _ else _] => destruct b end; cbn; discriminate.
Qed.
Lemma trans_ff : forall nel lsps cs x, snd (snd (trans nel lsps x cs)) = Ff -> (cs = [] /\ snd x = Ff) \/ last_opt cs = Some FF.
Proof.
  intros nel lsps cs x. destruct cs as [|c cs] using rev_ind; [now left|]. clear IHcs. rewrite trans_app. destruct (trans nel lsps x cs) as [o x1]. cbn [trans].
  pose proof (tstep_ff nel lsps x1 c) as T. destruct (tstep nel lsps x1 c) as [o2 x2]. cbn [snd] in *. intro H. right. rewrite last_opt_snoc. now rewrite T.
Qed.
Lemma feed_ff : forall nel lsps evs new a, feed nel lsps abs0 evs = (new, a) -> snd (a_ts a) = Ff -> last_opt (flat_map fst evs) = Some FF.
Proof.
  intros nel lsps evs. induction evs as [|[raw s] evs IH] using rev_ind; intros new a H F; [cbn in H; injection H as _ <-; discriminate|].
  rewrite feed_app in H. destruct (feed nel lsps abs0 evs) as [n1 a1] eqn:E1. cbn [feed] in H. destruct (absorb nel lsps a1 raw s) as [n2 a2] eqn:E2. injection H as _ <-.
  unfold absorb, pushed in E2. pose proof (trans_ff nel lsps (body (a_start a1) raw) (a_ts a1)) as T.
  destruct (trans nel lsps (a_ts a1) (body (a_start a1) raw)) as [o x]. destruct (fin s (last_opt (a_res a1 ++ o)) x) as [o2 x2] eqn:EF. injection E2 as _ <-. cbn [a_ts snd] in F, T.
  assert (FX : snd x = Ff).
  { destruct s; [cbn in EF; injection EF as _ <-; exact F| |]; exfalso; revert EF F; unfold fin; destruct x as [e t]; cbn [is_active is_end snd fst];
    destruct t as [[]| | | | | | |]; cbn [is_ground_nl snd]; intros K; injection K as _ <-; discriminate. }
  rewrite flat_map_app. cbn [flat_map fst]. rewrite app_nil_r, last_opt_app.
  assert (B : body (a_start a1) raw = raw \/ a1 = abs0).
  { destruct (a_start a1) eqn:ES; [right|left; reflexivity]. destruct evs as [|[r0 s0] evs] using rev_ind; [cbn in E1; injection E1 as _ <-; reflexivity|].
    exfalso. rewrite feed_app in E1. destruct (feed nel lsps abs0 evs) as [n3 a3]. cbn [feed] in E1. unfold absorb in E1. destruct (pushed nel lsps a3 r0 s0). injection E1 as _ <-. discriminate. }
  destruct (T FX) as [[B0 F1]|L].
  - destruct B as [B| ->]; [|discriminate]. rewrite B in B0. subst raw. cbn [last_opt]. exact (IH _ _ eq_refl F1).
  - assert (LR : last_opt raw = Some FF); [|now rewrite LR]. destruct B as [<-| ->]; [exact L|]. cbn in L. destruct raw as [|c raw]; [exact L|]. destruct (c =? BOM); [|exact L].
    change (c :: raw) with ([c] ++ raw). now rewrite last_opt_app, L.
Qed.
Theorem abandon_exact : forall nel lsps used rest sizes rs j held, holds nel lsps used rest sizes rs j held -> left_room sizes rs ->
  last_opt (stream_text used) <> Some 0xC -> abandon_input j = None <-> held <> [] /\ held <> [0xA].
Proof.
  intros nel lsps used rst sizes rs j held H L NF. destruct (room_state _ _ _ _ _ _ _ _ H L) as (W & A & I & C).
  pose proof (avail_queue j W A) as Q. unfold abandon_input. rewrite Q. change (residue j) with (a_res (abs_of j)) in *.
  destruct C as [(-> & E & _)|(evs & E1 & _ & E2 & E)]; [rewrite E; split; [discriminate|tauto]|].
  destruct (absorb_last _ _ _ _ _ I E) as [(-> & -> & _)|(y & -> & N & _ & Y)]; [split; [discriminate|tauto]|].
  assert (SF : snd (a_ts (abs_of j)) <> Ff).
  { intro K. apply NF. rewrite <- evs_text, E1, flat_map_app. cbn [flat_map fst]. rewrite !app_nil_r. exact (feed_ff _ _ _ _ _ E2 K). }
  destruct (a_res (abs_of j)) as [|c r] eqn:ER.
  - rewrite (Y SF eq_refl). cbn [app]. rewrite pipeline_nil. split; [discriminate|]. intros [_ K]. now destruct K.
  - split; [|reflexivity]. intros _. pose proof (pipeline_nonnil ((c :: r) ++ y) ltac:(discriminate)) as P. destruct (pipeline ((c :: r) ++ y)) as [|d u]; [congruence|].
    split; [discriminate|]. destruct u; discriminate.
Qed.

(** * C10 *)
Theorem push_reported_iff : forall i cs t blen n s out j, read i (Chunk cs Push :: t) blen = (ROk n s, out, j, t) -> s = Push <-> (n + 4 <= blen)%nat.
Proof.
  intros i cs t blen n s out j H. split; [|now apply (push_reported i cs t blen n s out j)]. intros ->.
  unfold read in H. destruct (Nat.ltb blen NORMALIZATION_BUFFER_SIZE) eqn:EB; [discriminate|]. apply Nat.ltb_ge in EB.
  assert (B4 : (4 <= blen)%nat) by (unfold NORMALIZATION_BUFFER_SIZE, NORMALIZATION_BUFFER_LEN, MAX_UTF8_SIZE in EB; clear - EB; lia).
  destruct (drain blen blen i) as [[cs1 e1] i1] eqn:D1. destruct e1; cbn [negb] in H; [|discriminate].
  destruct (is_active (pending i1)); cbn [negb] in H; [|discriminate]. cbn [inner_read] in H.
  destruct (drain_room _ _ _ _ _ _ B4 D1) as (L1 & L2 & _ & _). specialize (L2 eq_refl).
  destruct (drain (blen - str_len cs1) (blen - str_len cs1) (finish (process_raw i1 cs) Push)) as [[cs2 e2] i3] eqn:D2.
  destruct (drain_room _ _ _ _ _ _ L2 D2) as (M1 & M2 & _ & _). destruct e2; [|discriminate]. specialize (M2 eq_refl). injection H as <- _ _.
  rewrite str_len_app. clear - L1 L2 M1 M2. lia.
Qed.

Definition push_evs (segs : list (list N)) : list (list N * status) := map (fun s => (s, Push)) segs.
Definition ends_push (used : list event) : Prop := used = [] \/ exists u cs, used = u ++ [Chunk cs Push].
Lemma ends_push_tl : forall e t, ends_push (e :: t) -> (t = [] /\ exists cs, e = Chunk cs Push) \/ (t <> [] /\ ends_push t).
Proof.
  intros e t [H|(u & cs & E)]; [discriminate|]. destruct u as [|e' u]; cbn in E; injection E as -> ->; [left; eauto|]. right. split; [now destruct u|]. right. eauto.
Qed.
Lemma ends_push_segments : forall t, ends_push t -> t <> [] -> (forall cs, ~ In (Chunk cs End) t) -> exists s r, segments t = s :: r /\ r <> [].
Proof.
  induction t as [|e t IH]; intros H N NE; [congruence|]. destruct (ends_push_tl _ _ H) as [[-> [cs ->]]|[NT HT]]; [exists cs, [[]]; split; [reflexivity|discriminate]|].
  destruct IH as (s & r & E & NR); [assumption|assumption|intros c K; apply (NE c); now right|].
  destruct e as [cs []|]; cbn [segments]; [rewrite E; eauto|exists cs, (segments t); split; [reflexivity|apply segments_nonnil]|exfalso; apply (NE cs); now left|eauto].
Qed.
Lemma tr_merge : forall nel lsps used evs, ends_push used -> (forall cs, ~ In (Chunk cs End) used) -> evs_of used = evs ++ [([], End)] ->
  forall T x, tr nel lsps T x evs = tr nel lsps T x (push_evs (removelast (segments used))).
Proof.
  induction used as [|e used IH]; intros evs P NE E T x.
  - cbn in E. destruct evs as [|? [|? ?]]; [reflexivity|discriminate|discriminate].
  - assert (NE' : forall cs, ~ In (Chunk cs End) used) by (intros c K; apply (NE c); now right).
    destruct (ends_push_tl _ _ P) as [[-> [cs ->]]|[NT PT]].
    + cbn in E. destruct evs as [|e1 [|? [|? ?]]]; try discriminate. cbn in E. injection E as <-. reflexivity.
    + destruct (ends_push_segments _ PT NT NE') as (s & r & ES & NR).
      assert (RL : forall s', removelast (s' :: r) = s' :: removelast r) by (intro s'; now destruct r).
      destruct e as [cs []|].
      * cbn [evs_of] in E. destruct evs as [|e1 evs]; [cbn in E; injection E as _ E; now destruct (evs_nonnil used)|]. cbn in E. injection E as <- E.
        cbn [segments]. rewrite ES, RL. cbn [push_evs map]. fold (push_evs (removelast r)). rewrite <- tr_active.
        cbn [tr]. destruct (trans nel lsps x cs) as [o x1]. destruct (fin Active (last_opt (T ++ o)) x1) as [o2 x2]. rewrite (IH _ PT NE' E), ES, RL. reflexivity.
      * cbn [evs_of] in E. destruct evs as [|e1 evs]; [cbn in E; injection E as _ E; now destruct (evs_nonnil used)|]. cbn in E. injection E as <- E.
        cbn [segments]. rewrite ES. change (removelast (cs :: s :: r)) with (cs :: removelast (s :: r)). rewrite <- ES. cbn [push_evs map]. fold (push_evs (removelast (segments used))).
        cbn [tr]. destruct (trans nel lsps x cs) as [o x1]. destruct (fin Push (last_opt (T ++ o)) x1) as [o2 x2]. now rewrite (IH _ PT NE' E).
      * exfalso. apply (NE cs). now left.
      * cbn [evs_of segments] in *. now apply IH.
Qed.
Lemma tr_pushes : forall nel lsps segs rss T b, Forall2 (replaced true (char_rep nel lsps)) segs rss -> ends_ok T ->
  snd (tr nel lsps T (true, Ground b) (push_evs segs)) = (true, Ground (last_nl b (concat rss))).
Proof.
  induction segs as [|s segs IH]; intros rss T b F ET; inversion F as [|? rs ? rss' HR F' E1 E2]; subst; [reflexivity|].
  cbn [push_evs map]. fold (push_evs segs). rewrite (tr_push _ _ _ _ _ rs) by assumption.
  specialize (IH rss' (T ++ guarded rs) (last_nl b rs) F' (ends_ok_app _ _ ET (guard_end_ends _))).
  destruct (tr nel lsps (T ++ guarded rs) (true, Ground (last_nl b rs)) (push_evs segs)) as [o x]. cbn [snd] in *. rewrite IH. cbn [concat]. now rewrite last_nl_app.
Qed.
Lemma feed_ts : forall nel lsps evs T x new a, feed nel lsps (mkabs (incomplete T) x false) evs = (new, a) ->
  a_res a = incomplete (T ++ fst (tr nel lsps T x evs)) /\ a_ts a = snd (tr nel lsps T x evs).
Proof.
  induction evs as [|[raw s] evs IH]; intros T x new a H.
  - cbn in H. injection H as <- <-. cbn. now rewrite app_nil_r.
  - cbn [feed tr] in *. unfold absorb, pushed in H. cbn [a_res a_ts a_start body] in H.
    destruct (trans nel lsps x raw) as [o x1]. rewrite fin_last2 in H. destruct (fin s (last_opt (T ++ o)) x1) as [o2 x2].
    rewrite <- (proj2 (complete_app T (o ++ o2))) in H.
    set (x3 := (if is_active s then fst x2 else true, snd x2)) in *.
    destruct (feed nel lsps (mkabs (incomplete (T ++ o ++ o2)) x3 false) evs) as [n2 a2] eqn:EF. injection H as <- <-.
    destruct (IH (T ++ o ++ o2) x3 n2 a2 EF) as [R1 R2]. destruct (tr nel lsps (T ++ o ++ o2) x3 evs) as [o3 x4]. cbn [fst snd] in *.
    now rewrite <- !app_assoc in R1.
Qed.
Lemma Forall2_removelast : forall A B (R : A -> B -> Prop) l1 l2, Forall2 R l1 l2 -> Forall2 R (removelast l1) (removelast l2).
Proof. intros A B R l1 l2 F. induction F as [|x y l1 l2 R1 F IH]; [constructor|]. cbn. destruct F; [constructor|]. constructor; assumption. Qed.
Lemma strip_push : forall used, ends_push used -> ends_push (strip used).
Proof.
  intros used [->|(u & cs & ->)]; [now left|]. right. induction u as [|e u IH]; cbn [app strip].
  - exists [], (body true cs). reflexivity.
  - destruct e as [c s|]; [exists (Chunk (body true c) s :: u), cs; reflexivity|]. destruct IH as (v & c & E). exists (Fail :: v), c. cbn. now rewrite E.
Qed.
Lemma strip_no_end : forall used, (forall cs, ~ In (Chunk cs End) used) -> forall cs, ~ In (Chunk cs End) (strip used).
Proof.
  induction used as [|[c s|] used IH]; intros N cs; cbn [strip]; [exact (N cs)| |].
  - intros [K|K]; [injection K as _ ->; apply (N c); now left|apply (N cs); now right].
  - intros [K|K]; [discriminate|]. revert K. apply IH. intros c K. apply (N c). now right.
Qed.
Lemma last_segment : forall used, ends_push used -> (forall cs, ~ In (Chunk cs End) used) -> exists segs, segments used = segs ++ [[]].
Proof.
  induction used as [|e used IH]; intros P NE; [now exists []|].
  assert (NE' : forall cs, ~ In (Chunk cs End) used) by (intros c K; apply (NE c); now right).
  destruct (ends_push_tl _ _ P) as [[-> [cs ->]]|[NT PT]]; [now exists [cs]|].
  destruct (IH PT NE') as [segs E]. destruct e as [cs []|]; cbn [segments].
  - destruct (ends_push_segments _ PT NT NE') as (s & r & ES & NR). rewrite ES in *. destruct segs as [|s1 segs]; cbn in E; injection E as -> ->; [congruence|]. now exists ((cs ++ s1) :: segs).
  - rewrite E. now exists (cs :: segs).
  - exfalso. apply (NE cs). now left.
  - eauto.
Qed.
Lemma evs_of_app : forall u evs v, evs_of u = evs ++ [([], End)] -> (forall cs, ~ In (Chunk cs End) u) -> evs_of (u ++ v) = evs ++ evs_of v.
Proof.
  induction u as [|e u IH]; intros evs v E N.
  - cbn in E. destruct evs as [|? [|? ?]]; [reflexivity|discriminate|discriminate].
  - assert (N' : forall cs, ~ In (Chunk cs End) u) by (intros c K; apply (N c); now right).
    destruct e as [c []|]; cbn [evs_of app] in *; [| |exfalso; apply (N c); now left|now apply IH].
    all: destruct evs as [|e1 evs]; [cbn in E; injection E as _ E; now destruct (evs_nonnil u)|]; cbn in E; injection E as <- E; cbn; f_equal; now apply IH.
Qed.
Theorem push_complete : forall nel lsps used rest sizes rs j held rss, holds nel lsps used rest sizes rs j held -> pushed_last rs ->
  bom_visible used -> Forall2 (replaced true (char_rep nel lsps)) (segments_read used) rss -> held = [] <-> final_newline (concat rss) = [].
Proof.
  intros nel lsps used rst sizes rs j held rss H (rs' & n & cs & ->) BV F.
  pose proof H as [HR _]. pose proof (reads_length _ _ _ _ _ _ HR) as LN. destruct sizes as [|b sizes _] using rev_ind; [rewrite app_length in LN; cbn in LN; lia|].
  destruct (reads_snoc _ _ _ _ _ _ _ HR) as (rs1 & j1 & sc1 & r & cs' & R1 & R2 & E). apply app_inj_tail in E. destruct E as [<- E]. injection E as <- <-.
  destruct (push_genuine _ _ _ _ _ _ _ R2) as (c & ->). pose proof (proj1 (push_reported_iff _ _ _ _ _ _ _ _ R2) eq_refl) as L.
  assert (LR : left_room (sizes ++ [b]) (rs' ++ [(ROk n Push, cs)])) by (do 6 eexists; eauto).
  destruct (room_state _ _ _ _ _ _ _ _ H LR) as (W & A & I & C).
  destruct (reads_spec _ _ _ _ _ _ (wf_new nel lsps) R1) as (W1 & N1 & L1 & evs & new & TK & FD & _).
  rewrite (proj1 (abs_new nel lsps)) in FD. cbn [nel_compat lsps_compat new_input] in FD, N1, L1.
  destruct (took_suffix _ _ _ TK) as [EE|(u & E1 & E2 & E3)]; [destruct (took_end _ _ _ TK EE) as (k & _ & K); discriminate|].
  assert (EU : used = u ++ [Chunk c Push]) by (apply (app_inv_tail rst); now rewrite <- app_assoc). clear E1.
  assert (EV : evs_of used = (evs ++ [(c, Push)]) ++ [([], End)]) by (rewrite EU, (evs_of_app _ _ _ E2 E3), <- app_assoc; reflexivity).
  assert (NE : forall cs, ~ In (Chunk cs End) used).
  { intros x K. rewrite EU in K. apply in_app_or in K as [K|[K|[]]]; [exact (E3 x K)|discriminate]. }
  assert (EP : ends_push used) by (right; eauto).
  assert (FJ : exists new', feed nel lsps abs0 (evs ++ [(c, Push)]) = (new', abs_of j)).
  { destruct (read_spec _ _ _ _ _ _ _ W1 R2) as (_ & _ & _ & K).
    destruct K as [(X & _)|[(X & _)|[(X & _)|(raw & s & n1 & cs2 & EI & _ & _ & AB & _)]]]; try discriminate.
    cbn in EI. injection EI as <- <-. rewrite feed_app, FD. cbn [feed]. rewrite N1, L1 in AB. rewrite AB. eauto. }
  destruct FJ as [new' FJ]. rewrite feed_restart in FJ by (now destruct evs).
  assert (ER : evs_of (strip used) = restart (evs ++ [(c, Push)]) ++ [([], End)]) by (rewrite <- evs_strip, EV; now destruct evs as [|[? ?] ?]).
  destruct (feed_ts nel lsps _ [] (true, Ground true) _ _ FJ) as [_ TS].
  rewrite (tr_merge nel lsps _ _ (strip_push _ EP) (strip_no_end _ NE) ER), segments_strip in TS by exact BV.
  rewrite (tr_pushes _ _ _ _ [] true (Forall2_removelast _ _ _ _ _ F)) in TS by (intros t x K; now destruct t).
  assert (LS : concat (removelast rss) = concat rss).
  { destruct (last_segment _ (strip_push _ EP) (strip_no_end _ NE)) as [segs ES]. rewrite segments_strip in ES by exact BV. rewrite ES in F.
    apply Forall2_app_inv_l in F as (r1 & r2 & F1 & F2 & ->). inversion F2 as [|? rs0 ? r3 HR0 F3]; subst. inversion F3; subst.
    apply replaced_nil_inv in HR0. subst. rewrite removelast_app by discriminate. cbn [removelast]. rewrite !concat_app. reflexivity. }
  rewrite LS in TS. rewrite final_last. change (snd (a_ts (abs_of j))) with (st j) in *. injection TS as _ TS.
  destruct C as [(-> & _ & ST)|(evs' & _ & _ & _ & E)].
  - rewrite ST in TS. injection TS as <-. tauto.
  - destruct (absorb_last _ _ _ _ _ I E) as [(-> & _ & ST)|(y & -> & _ & ST & _)]; change (snd (a_ts (abs_of j))) with (st j) in ST; rewrite TS in ST.
    + injection ST as ->. tauto.
    + destruct (last_nl true (concat rss)); [congruence|]. split; [intro K; destruct (pipeline _); discriminate|discriminate].
Qed.

(** * C08 *)
Theorem failed_buffer : forall nel lsps script sizes rs i script1 s cs j script2, scalar_stream script -> scalars s ->
  reads (new_input nel lsps) script sizes = (rs, i, script1) -> read i script1 (length (encode_all s)) = (RErr, cs, j, script2) ->
  valid_utf8 (buffer_after RErr cs (encode_all s)) = true <-> whole_chars s (length (encode_all cs)).
Proof.
  intros nel lsps script sizes rs i script1 s cs j script2 SC SS HR H.
  destruct (reads_scalars _ _ _ _ _ _ (wf_new nel lsps) (scal_new nel lsps) SC HR) as (_ & W & SI & SC1).
  destruct (read_scalars _ _ _ _ _ _ _ W SI SC1 H) as (CS & _ & _). cbn [buffer_after]. set (n := length (encode_all cs)).
  assert (LE : (n <= length (encode_all s))%nat).
  { destruct (read_spec _ _ _ _ _ _ _ W H) as (_ & _ & _ & C). unfold n. rewrite encode_all_length.
    destruct C as [(X & _)|[(X & _)|[(_ & _ & _ & _ & _ & _ & _ & X)|(raw & s' & n1 & cs2 & _ & _ & _ & _ & _ & _ & _ & [(X & _)|(X & _)])]]]; try discriminate. exact X. }
  split.
  - intro V. apply valid_utf8_spec in V as (u & SU & EU). destruct (prefix_chars cs u _ CS SU (eq_sym EU)) as (b & -> & EB).
    assert (SB : scalars b) by (unfold scalars in *; now apply Forall_app in SU).
    pose proof (firstn_skipn n (encode_all s)) as FS. rewrite <- EB in FS.
    assert (LF : length (firstn n (encode_all s)) = n) by (rewrite firstn_length; lia).
    destruct b as [|c b].
    + exists s, []. rewrite app_nil_r. split; [reflexivity|]. rewrite app_nil_r in FS. now rewrite <- FS, LF.
    + assert (EN : exists x y, encode_all (c :: b) = x :: y /\ is_char_boundary x = true).
      { inversion SB as [|? ? SC' _]; subst. destruct (encode_shape c SC') as (x & y & EC & BX & _). cbn [encode_all flat_map]. rewrite EC. do 2 eexists. split; [reflexivity|exact BX]. }
      destruct EN as (x & y & EX & BX). rewrite EX in FS. destruct (split_at_char s _ _ _ SS (eq_sym FS) BX) as (s1 & s2 & -> & E1 & E2).
      exists s1, s2. split; [reflexivity|]. now rewrite E1, LF.
  - intros (a & b & -> & L). rewrite encode_all_app, <- L, skipn_app, skipn_all, Nat.sub_diag. cbn [skipn app].
    apply valid_utf8_spec. exists (cs ++ b). split; [|now rewrite encode_all_app]. unfold scalars in *. apply Forall_app in SS. apply Forall_app. tauto.
Qed.
Lemma received_delivered : forall rs, (length (received rs) <= length (delivered rs))%nat /\
  (length (received rs) = length (delivered rs) -> received rs = delivered rs) /\
  (received rs = delivered rs <-> forall r cs, In (r, cs) rs -> (forall n s, r <> ROk n s) -> cs = []).
Proof.
  induction rs as [|[r cs] rs (I1 & I2 & I3)]; [cbn; repeat split; auto; intros _ ? ? []|].
  unfold received, delivered in *. cbn [flat_map fst snd]. rewrite !app_length.
  destruct r as [n s| |].
  - split; [lia|]. split; [intro H; rewrite I2; [reflexivity|lia]|]. split.
    + intros E r' cs' [K|K] N; [injection K as <- <-; now destruct (N n s)|]. apply app_inv_head in E. exact (proj1 I3 E r' cs' K N).
    + intro A. f_equal. apply I3. intros r' cs' K. apply A. now right.
  - split; [cbn; lia|]. split; [intro H; cbn in *; destruct cs; [now rewrite I2|cbn in H; lia]|]. split.
    + intros E r' cs' K N. assert (cs = []) by (apply (f_equal (@length _)) in E; rewrite !app_length in E; destruct cs; [reflexivity|]; cbn [length] in E; lia).
      subst cs. destruct K as [K|K]; [now injection K as _ <-|]. exact (proj1 I3 E r' cs' K N).
    + intro A. rewrite (A RInvalid cs ltac:(now left) ltac:(discriminate)). cbn. apply I3. intros r' cs' K. apply A. now right.
  - split; [cbn; lia|]. split; [intro H; cbn in *; destruct cs; [now rewrite I2|cbn in H; lia]|]. split.
    + intros E r' cs' K N. assert (cs = []) by (apply (f_equal (@length _)) in E; rewrite !app_length in E; destruct cs; [reflexivity|]; cbn [length] in E; lia).
      subst cs. destruct K as [K|K]; [now injection K as _ <-|]. exact (proj1 I3 E r' cs' K N).
    + intro A. rewrite (A RErr cs ltac:(now left) ltac:(discriminate)). cbn. apply I3. intros r' cs' K. apply A. now right.
Qed.
Lemma invalid_empty : forall sizes i script rs j script', reads i script sizes = (rs, j, script') -> forall cs, In (RInvalid, cs) rs -> cs = [].
Proof.
  induction sizes as [|b sizes IH]; intros i script rs j script' H cs K; cbn [reads] in H.
  - injection H as <- _ _. destruct K.
  - destruct (read i script b) as [[[r c] i'] sc'] eqn:E. destruct (reads i' sc' sizes) as [[rs2 j2] sc2] eqn:E2. injection H as <- _ _.
    destruct K as [K|K]; [|exact (IH _ _ _ _ _ E2 cs K)]. injection K as -> <-. unfold read in E. destruct (Nat.ltb b NORMALIZATION_BUFFER_SIZE); [now injection E as <- _ _|].
    destruct (drain b b i) as [[c1 e1] i1]. destruct (negb e1); [discriminate|]. destruct (negb _); [discriminate|].
    destruct (inner_read script) as [[[raw s]|] sc]; [|discriminate]. destruct (drain _ _ _) as [[c2 e2] i3]. destruct e2; discriminate.
Qed.
Theorem lost_exact : forall nel lsps script sizes1 rs1 j1 rest1 t, reads (new_input nel lsps) script sizes1 = (rs1, j1, rest1) -> reached_end rs1 ->
  gives nel lsps (without_failures script) t -> received rs1 = t <-> forall cs, In (RErr, cs) rs1 -> cs = [].
Proof.
  intros nel lsps script sizes1 rs1 j1 rest1 t H E (sizes2 & rs2 & j2 & rest2 & H2 & E2 & <-).
  rewrite <- (failures_harmless _ _ _ _ _ _ _ _ _ _ _ H E H2 E2). rewrite (proj2 (proj2 (received_delivered rs1))). split.
  - intros A cs K. apply (A _ _ K). discriminate.
  - intros A r cs K N. destruct r as [n s| |]; [now destruct (N n s)|exact (invalid_empty _ _ _ _ _ _ H _ K)|exact (A _ K)].
Qed.
