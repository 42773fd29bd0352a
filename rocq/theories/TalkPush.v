(** Conversations over a connection that reports pushes after line ends (C103). *)
From Coq Require Import NArith Arith List Bool Lia ZifyBool ZifyNat ZifyN.
From Verif Require LineProps.
From Verif Require Import Base Ucd Norm Chars TextTables TextUtils UcdFacts NormFacts CharFacts SpecText TextFacts PipelineFacts IsoFacts Utf8 Utf8Facts Input Output SpecRead ReadFacts ReadInv ReadSession ReadChunk SpecEscape EscapeFacts EscapeRun ReadProps
  KeepFacts ReadPieces SpecConv ConvFacts ScalarFacts SpecWrite WriteFacts WriteProps WriteColour CopyProps Strings StringFacts ConcatFacts EdgeFacts SpecString StringProps LossyProps Fuzz FuzzProps SpecMore CanonProps
  Copy Duplex SpecDuplex DuplexProps DuplexExact SpecCat CatProps SpecPush PushProps AdaptProps SpecPrompt PromptProps Talk SpecTalk TalkProps TalkHeard TalkLive.
Import ListNotations.
Local Open Scope N_scope.
Arguments N.add : simpl never.
Arguments N.leb : simpl never.
Arguments N.ltb : simpl never.
Arguments N.eqb : simpl never.
Local Opaque pipeline.

(** * The events of one end *)
Lemma step_grows : forall me other t r me', side_step me other t = (r, me') -> grows (dout (here me)) (dout (here me')).
Proof.
  intros me other t r me' H. destruct t as [blen a|o]; [apply grows_same; exact (quiet_step _ _ _ _ _ H Logic.I)|]. cbn [side_step] in H. destruct (do_dop (here me) (DOut o)) as [r0 d] eqn:E. injection H as _ <-. exact (dop_grows _ _ _ _ E).
Qed.
(** Each push of [sc], before the end, comes after a line end; [t] is the text before. *)
Definition push_lines (t : list N) (sc : list event) : Prop :=
  forall a cs b, sc = a ++ Chunk cs Push :: b -> existsb TalkProps.is_end a = false -> line_terminated (t ++ stream_text (a ++ [Chunk cs Push])).
Definition taken_text (w : bool) (e : side * side) (n : nat) : list N := firstn (taken (end_of w e) + n) (emitted (inner (dout (here (end_of (negb w) e))))).
Lemma end_pushes : forall nel lsps cr an o w os rs e, talk (at_start nel lsps cr an o true) (at_start nel lsps cr an o false) os = (rs, e) ->
  exists sc, follows (nel w) (lsps w) (cr w) (an w) (o w) (end_of w e) (end_of (negb w) e) (ops_at w os) (results_at w rs) sc /\
    (no_failures w os -> no_fail sc) /\ (pushes_after_lines nel lsps cr an o w os -> push_lines [] sc).
Proof.
  intros nel lsps cr an o w. induction os as [|[v t] os IH] using rev_ind; intros rs e H.
  - cbn in H. injection H as <- <-. exists []. split; [destruct w; apply follows_new|]. split; [intros _ []|]. intros _ a cs b E. destruct a; discriminate E.
  - rewrite talk_app in H. destruct (talk (at_start nel lsps cr an o true) (at_start nel lsps cr an o false) os) as [r1 e1] eqn:E1. destruct (IH _ _ eq_refl) as (sc & F & NF & PL). clear IH.
    assert (PL' : pushes_after_lines nel lsps cr an o w (os ++ [(v, t)]) -> push_lines [] sc).
    { intro K. apply PL. intros a b n c E. apply (K a b n (c ++ [(v, t)])). now rewrite E, <- app_assoc. }
    assert (NF' : no_failures w (os ++ [(v, t)]) -> no_fail sc) by (intro K; apply Forall_app in K; apply NF, K).
    rewrite ops_at_app. destruct (Bool.bool_dec v w) as [->|NE].
    + destruct (side_step (end_of w e1) (end_of (negb w) e1) t) as [r me'] eqn:ES.
      assert (Q : rs = r1 ++ [(w, r)] /\ end_of w e = me' /\ end_of (negb w) e = end_of (negb w) e1).
      { cbn [talk] in H. destruct w; cbn [end_of negb] in ES; rewrite ES in H; injection H as <- <-; repeat split. }
      destruct Q as (-> & QM & QO). rewrite QM, QO, results_at_app.
      assert (Z1 : ops_at w [(w, t)] = [dop_of t]) by (destruct w, t; reflexivity). assert (Z2 : results_at w [(w, r)] = [r]) by (destruct w; reflexivity). rewrite Z1, Z2.
      destruct (follows_step _ _ _ _ _ _ _ _ _ _ _ _ _ F ES) as (_ & es & F' & C). exists (sc ++ es). split; [exact F'|].
      destruct C as [->|(ev & blen & a & -> & -> & EO)]; [rewrite app_nil_r; auto|].
      assert (OV : over (end_of w e1) = false) by (unfold offer in EO; destruct (over (end_of w e1)); [discriminate|reflexivity]).
      split.
      * intros K IN. apply in_app_or in IN. destruct IN as [IN|[->|[]]]; [exact (NF' K IN)|]. apply Forall_app in K. destruct K as [_ K]. pose proof (Forall_inv K eq_refl) as K1. cbn in K1.
        unfold offer in EO. rewrite OV in EO. destruct a as [[n s]|]; [discriminate|exact K1].
      * intros K x cs b E NX. destruct b as [|z b _] using rev_ind.
        -- apply app_inj_tail in E. destruct E as [<- ->]. cbn [app]. rewrite (f_text _ _ _ _ _ _ _ _ _ _ F').
           unfold offer in EO. rewrite OV in EO. destruct a as [[n s]|]; [|discriminate]. injection EO as EC ST. assert (s = Push) as -> by (destruct s; [discriminate|reflexivity|destruct (_ && _); discriminate]).
           pose proof (K os blen n [] eq_refl) as LT. rewrite E1 in LT. cbn [snd] in LT.
           assert (TK : taken me' = (taken (end_of w e1) + length cs)%nat).
           { cbn [side_step] in ES. unfold offer in ES. rewrite OV in ES. destruct (do_dop _ _) as [r0 d] eqn:ED. destruct (dscript d) eqn:EDS; injection ES as _ <-; cbn [taken]; [now rewrite EC|].
             exfalso. pose proof (f_text _ _ _ _ _ _ _ _ _ _ F') as T1. pose proof (f_run _ _ _ _ _ _ _ _ _ _ F' []) as R1. pose proof (f_run _ _ _ _ _ _ _ _ _ _ F [Chunk cs Push]) as R0.
             rewrite <- app_assoc in R1. cbn [app] in R1. rewrite dops_snoc in R1. change [Chunk cs Push] with ([Chunk cs Push] ++ []) in R0. rewrite app_nil_r in R0. rewrite R0 in R1. rewrite OV in R1. cbn [over] in R1.
             cbn [dop_of] in R1. rewrite EC in ED. rewrite ED in R1. injection R1 as _ R1. rewrite R1 in EDS. cbn in EDS. discriminate. }
           rewrite TK, <- EC, firstn_length. unfold incoming. rewrite skipn_length.
           match goal with |- line_terminated (firstn ?k ?l) => assert (EQ : firstn k l = firstn (taken (end_of w e1) + n) l) end; [|rewrite EQ; exact LT].
           set (em := emitted _) in *. destruct (Nat.le_gt_cases n (length em - taken (end_of w e1))) as [L|L]; [f_equal; lia|]. rewrite !firstn_all2 by lia. reflexivity.
        -- apply (PL' K x cs b); [|exact NX]. change (x ++ Chunk cs Push :: b ++ [z]) with (x ++ (Chunk cs Push :: b) ++ [z]) in E. rewrite app_assoc in E. apply app_inj_tail in E. now destruct E.
    + assert (v = negb w) as -> by (destruct v, w; try reflexivity; now destruct NE). clear NE.
      destruct (side_step (end_of (negb w) e1) (end_of w e1) t) as [r you'] eqn:ES.
      assert (Q : rs = r1 ++ [(negb w, r)] /\ end_of (negb w) e = you' /\ end_of w e = end_of w e1).
      { cbn [talk] in H. destruct w; cbn [end_of negb] in ES |- *; cbn [negb] in H; rewrite ES in H; injection H as <- <-; repeat split. }
      destruct Q as (-> & QM & QO). rewrite QM, QO, results_at_app.
      assert (Z1 : ops_at w [(negb w, t)] = []) by (destruct w; reflexivity). assert (Z2 : results_at w [(negb w, r)] = []) by (destruct w; reflexivity). rewrite Z1, Z2, !app_nil_r.
      exists sc. split; [|auto]. exact (follows_other _ _ _ _ _ _ _ _ _ _ _ F (step_grows _ _ _ _ _ ES)).
Qed.

(** * The texts between the pushes *)
Lemma push_lines_cons : forall t e sc, push_lines t (e :: sc) -> TalkProps.is_end e = false -> push_lines (t ++ stream_text [e]) sc.
Proof.
  intros t e sc P NE a cs b E NA. specialize (P (e :: a) cs b ltac:(now rewrite E)). cbn [existsb] in P. rewrite NE in P. specialize (P NA). cbn [app] in P.
  change (e :: a ++ [Chunk cs Push]) with ([e] ++ (a ++ [Chunk cs Push])) in P. rewrite stream_more in P by (cbn; now rewrite NE). now rewrite <- app_assoc.
Qed.
Lemma segment_prefix : forall sc t, push_lines t sc -> forall l s r, segments sc = l ++ s :: r -> r <> [] -> line_terminated (t ++ concat l ++ s).
Proof.
  induction sc as [|e sc IH]; intros t P l s r E NR.
  - cbn in E. destruct l as [|x [|y l]]; try discriminate E. injection E as _ <-. congruence.
  - destruct e as [cs [| |]|]; cbn [segments] in E.
    + pose proof (IH _ (push_lines_cons _ _ _ P eq_refl)) as K. cbn [stream_text] in K. rewrite app_nil_r in K. destruct (segments sc) as [|s0 r0] eqn:ES; [destruct (segments_nonnil _ ES)|].
      destruct l as [|x l].
      * injection E as <- <-. specialize (K [] s0 r0 eq_refl NR). cbn [concat app] in K |- *. now rewrite <- app_assoc in K.
      * injection E as <- E. specialize (K (s0 :: l) s r ltac:(now rewrite E) NR). cbn [concat] in K |- *. now rewrite <- !app_assoc in K |- *.
    + pose proof (IH _ (push_lines_cons _ _ _ P eq_refl)) as K. cbn [stream_text] in K. rewrite app_nil_r in K. destruct l as [|x l].
      * injection E as <- <-. specialize (P [] cs sc eq_refl eq_refl). cbn in P. rewrite app_nil_r in P. exact P.
      * injection E as <- E. specialize (K l s r E NR). cbn [concat]. now rewrite <- !app_assoc in K |- *.
    + destruct l as [|x [|y l]]; try discriminate E. injection E as _ <-. congruence.
    + pose proof (IH _ (push_lines_cons _ _ _ P eq_refl) l s r E NR) as K. cbn [stream_text] in K. now rewrite app_nil_r in K.
Qed.
Lemma expand_split : forall v x y, as_sent true v = x ++ 0xA :: y -> exists v1 v2, v = v1 ++ 0xA :: v2 /\ x ++ [0xA] = as_sent true (v1 ++ [0xA]) /\ y = as_sent true v2.
Proof.
  induction v as [|c v IH]; intros x y E; [destruct x; discriminate E|]. change (c :: v) with ([c] ++ v) in E. rewrite as_sent_app in E.
  assert (EC : as_sent true [c] = if c =? 0xA then [0xD; 0xA] else [c]) by (cbn; now destruct (c =? 0xA)). rewrite EC in E. destruct (N.eqb_spec c 0xA) as [->|NC].
  - destruct x as [|a [|b x]]; cbn [app] in E; [discriminate E|injection E as <- E|injection E as <- <- E].
    + exists [], v. split; [reflexivity|]. split; [reflexivity|now symmetry].
    + destruct (IH _ _ E) as (v1 & v2 & -> & E1 & E2). exists (0xA :: v1), v2. split; [reflexivity|]. split; [|exact E2]. change (0xD :: 0xA :: x) with ([0xD; 0xA] ++ x). rewrite <- app_assoc, E1. change ((0xA :: v1) ++ [0xA]) with ([0xA] ++ (v1 ++ [0xA])). now rewrite (as_sent_app true [0xA]).
  - destruct x as [|a x]; cbn [app] in E; [injection E as E0 _; now destruct (NC E0)|]. injection E as <- E. destruct (IH _ _ E) as (v1 & v2 & -> & E1 & E2). exists (c :: v1), v2. split; [reflexivity|]. split; [|exact E2].
    cbn [app]. rewrite E1. change (c :: v1 ++ [0xA]) with ([c] ++ (v1 ++ [0xA])). rewrite (as_sent_app true [c]), EC. reflexivity.
Qed.
Lemma sent_split : forall cr v x y, line_terminated x -> as_sent cr v = x ++ y -> exists v1 v2, v = v1 ++ v2 /\ x = as_sent cr v1 /\ y = as_sent cr v2 /\ line_terminated v1.
Proof.
  intros cr v x y [->|[t ->]] E; [exists [], v; split; [reflexivity|]; split; [destruct cr; reflexivity|]; split; [symmetry; exact E|now left]|]. destruct cr.
  - rewrite <- app_assoc in E. cbn [app] in E. destruct (expand_split _ _ _ E) as (v1 & v2 & -> & E1 & E2). exists (v1 ++ [0xA]), v2. split; [now rewrite <- app_assoc|]. split; [exact E1|]. split; [exact E2|]. right. eauto.
  - cbn in E. exists (t ++ [0xA]), y. split; [exact E|]. split; [reflexivity|]. split; [reflexivity|]. right. eauto.
Qed.
Definition calm_segments (nel lsps : bool) (segs : list (list N)) : Prop :=
  Forall (fun s => s = [] \/ ends_line nel lsps s) (removelast segs) /\ Forall (begins_ok nel lsps) (tl segs).
Lemma removelast_In : forall A (l : list A) x, In x (removelast l) -> exists a y b, l = a ++ x :: y :: b.
Proof.
  induction l as [|c l IH]; intros x H; [destruct H|]. destruct l as [|d l]; [destruct H|]. destruct H as [->|H]; [now exists [], d, l|]. destruct (IH _ H) as (a & y & b & ->). now exists (c :: a), y, b.
Qed.
Lemma line_terminated_tail : forall a b, line_terminated (a ++ b) -> b <> [] -> exists t, b = t ++ [0xA].
Proof.
  intros a b [E|[t E]] NB; [apply app_eq_nil in E; destruct E; congruence|]. destruct b as [|c b _] using rev_ind; [congruence|]. rewrite app_assoc in E. apply app_inj_tail in E. destruct E as [_ ->]. eauto.
Qed.
Lemma sent_segments : forall cr nel lsps v sc, all_clean v -> lines_begin v -> stream_text sc = as_sent cr v -> push_lines [] sc -> calm_segments nel lsps (segments sc).
Proof.
  intros cr nel lsps v sc C LB TX PL.
  assert (PRE : forall l s r, segments sc = l ++ s :: r -> line_terminated (concat l)).
  { intros l s r E. destruct l as [|x l _] using rev_ind; [now left|]. rewrite <- app_assoc in E. cbn [app] in E. pose proof (segment_prefix _ _ PL _ _ _ E ltac:(discriminate)) as K. cbn [app] in K. rewrite concat_app. cbn [concat]. now rewrite app_nil_r. }
  assert (PART : forall l s r, segments sc = l ++ s :: r -> exists v1 u v2, v = v1 ++ u ++ v2 /\ s = as_sent cr u /\ line_terminated v1).
  { intros l s r E. pose proof (PRE _ _ _ E) as P1. assert (TE : as_sent cr v = concat l ++ s ++ concat r) by (rewrite <- TX, <- segments_concat, E, concat_app; reflexivity).
    destruct r as [|z r].
    - cbn [concat] in TE. rewrite app_nil_r in TE. destruct (sent_split _ _ _ _ P1 TE) as (v1 & v2 & -> & _ & E2 & LT). exists v1, v2, []. rewrite app_nil_r. auto.
    - pose proof (segment_prefix _ _ PL _ _ _ E ltac:(discriminate)) as P2. cbn [app] in P2. rewrite app_assoc in TE. destruct (sent_split _ _ _ _ P2 TE) as (v3 & v4 & -> & E3 & _ & _).
      symmetry in E3. destruct (sent_split _ _ _ _ P1 E3) as (v1 & u & -> & _ & E2 & LT). exists v1, u, v4. rewrite <- app_assoc. auto. }
  split.
  - apply Forall_forall. intros s IN. destruct (removelast_In _ _ _ IN) as (l & y & r & E). destruct s as [|c s]; [now left|]. right.
    pose proof (segment_prefix _ _ PL _ _ _ E ltac:(discriminate)) as P2. cbn [app] in P2. destruct (line_terminated_tail _ _ P2 ltac:(discriminate)) as [t ET].
    destruct (PART _ _ _ E) as (v1 & u & v2 & EV & ES & _). assert (CU : all_clean u) by (rewrite EV in C; apply Forall_app in C; destruct C as [_ C]; apply Forall_app in C; now destruct C).
    exists t, (map (fun c => [c]) u). split; [exact ET|]. rewrite ES. split; [now apply sent_replaced|].
    rewrite ES in ET. destruct (sent_split cr u (t ++ [0xA]) [] ltac:(right; eauto) ltac:(now rewrite app_nil_r)) as (u1 & u2 & EU & _ & E2 & LU). assert (u2 = []) as -> by (destruct u2 as [|d u2]; [reflexivity|]; destruct cr; cbn in E2; [destruct (d =? 10)|]; discriminate E2).
    rewrite app_nil_r in EU. subst u1. destruct LU as [->|[z ->]]; [destruct cr; discriminate ES|]. rewrite map_app. cbn [map]. apply last_opt_snoc.
  - apply Forall_forall. intros s IN rs R. destruct (segments sc) as [|s0 segs] eqn:ES0; [destruct IN|]. cbn [tl] in IN. apply in_split in IN. destruct IN as (l & r & ->).
    destruct (PART (s0 :: l) s r eq_refl) as (v1 & u & v2 & EV & ES & LT). assert (CU : all_clean u) by (rewrite EV in C; apply Forall_app in C; destruct C as [_ C]; apply Forall_app in C; now destruct C).
    rewrite ES in R. rewrite (replaced_det _ _ _ _ R _ (sent_replaced cr nel lsps u CU)), concat_singles.
    assert (SU : starts_ok (u ++ v2)) by (destruct LB as [L1 L2]; destruct LT as [->|[t ->]]; [rewrite EV in L1; exact L1|]; apply (L2 t); now rewrite EV, <- !app_assoc).
    intros c t EU. apply (SU c (t ++ v2)). now rewrite EU.
Qed.
Lemma pushed_calm : forall nel lsps segs rss, segs <> [] -> Forall2 (replaced true (char_rep nel lsps)) segs rss -> calm_segments nel lsps segs ->
  pushed_text rss = made (concat rss) /\ replaced true (char_rep nel lsps) (concat segs) (concat rss).
Proof.
  induction segs as [|s segs IH]; intros rss NE F [L B]; [congruence|]. inversion F as [|? rs ? rss' HR F' E1 E2]; subst.
  destruct segs as [|s2 segs].
  - inversion F'; subst. unfold pushed_text. cbn [concat map]. rewrite !app_nil_r. auto.
  - cbn [tl] in B. change (removelast (s :: s2 :: segs)) with (s :: removelast (s2 :: segs)) in L. inversion L as [|? ? L1 L2]; subst.
    destruct (IH rss' ltac:(discriminate) F') as [E R]. { split; [exact L2|]. cbn [tl]. now inversion B. }
    destruct L1 as [->|(x & rs' & EX & HR' & LR)].
    + apply CatProps.replaced_nil_inv in HR. subst rs. split; [exact E|exact R].
    + subst s. rewrite (replaced_det _ _ _ _ HR' _ HR) in LR. split.
      * destruct (made_cat rs (concat rss') LR) as (y & M1 & M2). cbn [concat]. rewrite M2. pose proof (starts_ok_concat _ _ _ _ F' B) as SO.
        destruct (made_starts (concat rss')) as [[M3 _]|(_ & _ & K)]; [|contradiction]. rewrite <- M3, <- E. change (y ++ LF :: pushed_text rss') with (y ++ [LF] ++ pushed_text rss').
        rewrite app_assoc, <- M1, made_line by exact LR. unfold pushed_text. cbn [map concat]. rewrite final_after by exact LR. now rewrite <- app_assoc.
      * change (concat ((x ++ [0xA]) :: s2 :: segs)) with ((x ++ [0xA]) ++ concat (s2 :: segs)). cbn [concat] in R |- *. apply replaced_app; eauto.
Qed.
Lemma sent_no_first : forall cr v sc, all_clean v -> stream_text sc = as_sent cr v -> segments_read sc = segments sc.
Proof.
  intros cr v sc C TX. unfold segments_read. destruct (segments sc) as [|s r] eqn:E; [reflexivity|]. f_equal. pose proof (segments_concat sc) as SC. rewrite E, TX in SC. cbn [concat] in SC.
  destruct s as [|c s]; [reflexivity|]. cbn. destruct (N.eqb_spec c 0xFEFF) as [->|_]; [|reflexivity]. exfalso. apply (sent_no_bom cr v C (s ++ concat r)). symmetry. exact SC.
Qed.
Lemma pushed_gives : forall cr nel lsps v sc, string_ok v -> Forall (fun c => is_assigned c = true) v -> lines_begin v -> stream_text sc = as_sent cr v -> push_lines [] sc -> gives nel lsps sc (ended_text v).
Proof.
  intros cr nel lsps v sc OK A LB E PL. pose proof (ok_clean v OK) as C. destruct (session_terminates nel lsps sc) as [n H]. destruct (H (repeat 136%nat n)) as (k & rs & j & rest & R & RE).
  - apply Forall_forall. intros b IB. apply repeat_spec in IB. subst b. apply le_n.
  - rewrite repeat_length. apply le_n.
  - do 4 eexists. split; [exact R|]. split; [exact RE|].
    assert (BV : bom_visible sc) by (left; rewrite E; exact (sent_no_bom cr v C)).
    destruct (all_replaced nel lsps (segments_read sc)) as [rss F].
    assert (CS : calm_segments nel lsps (segments_read sc)) by (rewrite (sent_no_first _ _ _ C E); exact (sent_segments _ _ _ _ _ C LB E PL)).
    destruct (pushed_calm _ _ _ _ (segments_read_nonnil sc) F CS) as [EP RP]. rewrite segments_read_concat in RP by exact BV.
    assert (G2 : gives nel lsps [Chunk (as_sent cr v) End] (ended_text v)).
    { apply (sent_gives cr); [exact OK|exact A| |]; [reflexivity|]. intros cs [K|[]]. discriminate K. }
    assert (R2 : regular [Chunk (as_sent cr v) End]).
    { split; [intros cs [K|[]]; discriminate K|]. left. cbn [stream_text]. exact (sent_no_bom cr v C). }
    assert (RC : concat rss = map (fun c => [c]) v).
    { apply (replaced_det _ _ _ _ RP). rewrite E. assert (without_bom (as_sent cr v) = as_sent cr v) as ->; [|now apply sent_replaced].
      pose proof (sent_no_bom cr v C) as G. destruct (as_sent cr v) as [|c u]; [reflexivity|]. cbn. destruct (c =? 0xFEFF) eqn:EB; [|reflexivity]. apply N.eqb_eq in EB. subst c. exfalso. now apply (G u). }
    assert (U : unguarded_text (concat (concat rss))) by (rewrite RC, concat_singles; now apply assigned_unguarded).
    rewrite (session_pushed _ _ _ _ _ _ _ _ R RE BV F); rewrite EP.
    + symmetry. apply (gives_made _ _ _ _ _ G2 R2); [|exact U]. cbn [stream_text]. rewrite <- E. exact RP.
    + unfold made. rewrite final_newline_eq. now apply unguarded_guarded.
Qed.

(** * What is heard *)
Lemma whole_pushed : forall nel lsps cr an o os rs e w, talk (at_start nel lsps cr an o true) (at_start nel lsps cr an o false) os = (rs, e) ->
  Forall (fun x => x <> DOut OpAbandon) (ops_at w os) -> no_failures w os -> pushes_after_lines nel lsps cr an o w os -> (over (end_of w e) = true -> all_arrived w e) ->
  exists sc tail, (all_arrived w e -> tail = []) /\ no_fail (sc ++ tail) /\ push_lines [] (sc ++ tail) /\ stream_text (sc ++ tail) = emitted (inner (dout (here (end_of (negb w) e)))) /\
    existsb TalkProps.is_end sc = over (end_of w e) /\
    reads (new_input (nel w) (lsps w)) (sc ++ tail) (read_sizes (ops_at w os)) = (read_results (results_at w rs), din (here (end_of w e)), tail).
Proof.
  intros nel lsps cr an o os rs e w H NA NF PL OV. destruct (end_pushes _ _ _ _ _ w _ _ _ H) as (sc & [A B C D E] & K1 & K2). specialize (K1 NF). specialize (K2 PL). set (me := end_of w e) in *. set (you := end_of (negb w) e) in *.
  exists sc, (if (taken me =? length (emitted (inner (dout (here you)))))%nat then [] else [Chunk (skipn (taken me) (emitted (inner (dout (here you))))) End]). unfold all_arrived in *. fold me you in OV |- *.
  destruct (taken me =? length (emitted (inner (dout (here you)))))%nat eqn:T.
  - apply Nat.eqb_eq in T. split; [reflexivity|]. rewrite app_nil_r. split; [exact K1|]. split; [exact K2|]. split; [rewrite B, T; apply firstn_all|]. split; [exact D|].
    specialize (A []). rewrite app_nil_r in A. pose proof (duplex_reads _ _ _ _ A NA) as R. cbn [din dscript new_duplexer] in R. destruct (over me); exact R.
  - apply Nat.eqb_neq in T. destruct (over me) eqn:EO; [exfalso; exact (T (OV eq_refl))|]. split; [intro Q; contradiction|].
    split; [intro F; apply in_app_or in F; destruct F as [F|[F|[]]]; [exact (K1 F)|discriminate F]|]. split.
    { intros a cs b EQ NX. destruct b as [|z b _] using rev_ind; [apply app_inj_tail in EQ; destruct EQ; discriminate|]. apply (K2 a cs b); [|exact NX].
      change (a ++ Chunk cs Push :: b ++ [z]) with (a ++ (Chunk cs Push :: b) ++ [z]) in EQ. rewrite app_assoc in EQ. apply app_inj_tail in EQ. now destruct EQ. }
    split; [rewrite stream_more by exact D; cbn [stream_text]; rewrite ?app_nil_r, B; apply firstn_skipn|]. split; [exact D|].
    match goal with |- reads _ (_ ++ ?m) _ = _ => specialize (A m) end. pose proof (duplex_reads _ _ _ _ A NA) as R. cbn [din dscript new_duplexer] in R. exact R.
Qed.
Theorem pushed_heard : forall nel lsps cr an o os rs e w, talk (at_start nel lsps cr an o true) (at_start nel lsps cr an o false) os = (rs, e) ->
  Forall (fun x => x <> DOut OpAbandon) (ops_at w os) -> no_failures w os -> pushes_after_lines nel lsps cr an o w os -> closes_last (negb w) os ->
  an (negb w) = false -> Forall plain_dop (ops_at (negb w) os) -> all_written (negb w) rs ->
  let sent := written (ops_at (negb w) os) in string_ok sent -> Forall (fun c => is_assigned c = true) sent -> lines_begin sent ->
  (exists more, ended_text sent = heard w rs ++ more) /\ (reached_end (read_results (results_at w rs)) -> heard w rs = ended_text sent).
Proof.
  intros nel lsps cr an o os rs e w H NA NFL PL OV AN P AW sent OK AS LB. destruct (whole_pushed _ _ _ _ _ _ _ _ _ H NA NFL PL (fun K => proj2 (end_is_last _ _ _ _ _ _ _ _ _ H OV K))) as (sc & tail & _ & NF & PP & TX & _ & R).
  rewrite (end_sent _ _ _ _ _ _ _ _ _ H AN P AW) in TX. fold sent in TX. pose proof (pushed_gives _ (nel w) (lsps w) _ _ OK AS LB TX PP) as G.
  destruct (received_is_prefix _ _ _ _ _ _ _ _ NF G R) as [X Y]. split; [exact X|]. intro RE. symmetry. exact (Y RE).
Qed.

(** * Nothing is held back after a line end *)
Lemma fin_quiet : forall s l x, s <> End -> quiet x -> quiet (snd (fin s l x)) /\ (snd x = Ground true -> snd (snd (fin s l x)) = Ground true).
Proof.
  intros s l [e t] NE Q. unfold quiet in *. cbn [snd] in Q. destruct s; [split; [exact Q|auto]| |congruence]. unfold fin. cbn [is_active snd fst].
  destruct t; try destruct Q; cbn; repeat match goal with |- context [match ?b with _ => _ end] => destruct b end; split; auto; exact Logic.I || (intro K; discriminate K).
Qed.
Lemma feed_calm : forall nel lsps evs new a, feed nel lsps abs0 evs = (new, a) -> Forall (fun e => snd e <> End) evs -> Forall (fun c => c <> 0x1B) (flat_map fst evs) ->
  quiet (a_ts a) /\ (last_opt (flat_map fst evs) = Some 0xA -> snd (a_ts a) = Ground true).
Proof.
  intros nel lsps evs. induction evs as [|[raw s] evs IH] using rev_ind; intros new a H AC F; [cbn in H; injection H as _ <-; split; [exact Logic.I|discriminate]|].
  rewrite feed_app in H. destruct (feed nel lsps abs0 evs) as [n1 a1] eqn:E1. cbn [feed] in H. destruct (absorb nel lsps a1 raw s) as [n2 a2] eqn:E2. injection H as _ <-.
  apply Forall_app in AC. destruct AC as [AC1 AC2]. pose proof (Forall_inv AC2) as ES. cbn in ES. rewrite flat_map_app in F |- *. cbn [flat_map fst] in F |- *. rewrite app_nil_r in F |- *. apply Forall_app in F. destruct F as [F1 F2].
  destruct (IH _ _ eq_refl AC1 F1) as [Q1 L1]. unfold absorb, pushed in E2.
  assert (FB : Forall (fun c => c <> 0x1B) (body (a_start a1) raw)).
  { unfold body. destruct (a_start a1); [|exact F2]. destruct raw as [|c raw]; [exact F2|]. destruct (c =? BOM); [now inversion F2|exact F2]. }
  pose proof (trans_quiet nel lsps _ _ Q1 FB) as Q2.
  assert (LQ : last_opt (body (a_start a1) raw) = Some 0xA -> snd (snd (trans nel lsps (a_ts a1) (body (a_start a1) raw))) = Ground true).
  { intro L. apply last_opt_some in L. destruct L as [t L]. rewrite L in FB |- *. apply Forall_app in FB. destruct FB as [FB _]. rewrite trans_app. pose proof (trans_quiet nel lsps t _ Q1 FB) as Q3.
    destruct (trans nel lsps (a_ts a1) t) as [o1 x1]. cbn [snd] in Q3. pose proof (tstep_lf nel lsps x1 Q3) as T. cbn [trans]. destruct (tstep nel lsps x1 0xA) as [o2 x2]. exact T. }
  assert (B : body (a_start a1) raw = raw \/ a1 = abs0 /\ evs = []).
  { destruct (a_start a1) eqn:SS; [right|left; reflexivity]. destruct evs as [|[r0 s0] evs] using rev_ind; [cbn in E1; injection E1 as _ <-; auto|].
    exfalso. rewrite feed_app in E1. destruct (feed nel lsps abs0 evs) as [n3 a3]. cbn [feed] in E1. unfold absorb in E1. destruct (pushed nel lsps a3 r0 s0). injection E1 as _ <-. discriminate. }
  destruct (trans nel lsps (a_ts a1) (body (a_start a1) raw)) as [o x] eqn:ET. cbn [snd] in Q2, LQ.
  destruct (fin_quiet s (last_opt (a_res a1 ++ o)) x ES Q2) as [Q3 G3]. destruct (fin s (last_opt (a_res a1 ++ o)) x) as [o2 x2]. cbn [snd] in Q3, G3. injection E2 as _ <-. cbn [a_ts snd fst quiet]. split; [exact Q3|].
  intro L. apply G3. rewrite ReadFacts.last_opt_app in L. destruct (last_opt raw) as [c|] eqn:LR.
  - injection L as ->. apply LQ. destruct B as [->|[-> ->]]; [exact LR|]. cbn [a_start abs0 body]. destruct raw as [|c raw]; [discriminate|]. destruct (N.eqb_spec c BOM) as [->|_]; [|exact LR].
    change (BOM :: raw) with ([BOM] ++ raw) in LR. rewrite ReadFacts.last_opt_app in LR. destruct (last_opt raw); [exact LR|discriminate].
  - apply last_opt_none in LR. subst raw. assert (BE : body (a_start a1) [] = []) by (unfold body; now destruct (a_start a1)). rewrite BE in ET. cbn in ET. injection ET as _ <-. now apply L1.
Qed.
Lemma evs_before : forall sc, existsb TalkProps.is_end sc = false -> forall evs x, evs_of sc = evs ++ [x] -> Forall (fun e => snd e <> End) evs.
Proof.
  induction sc as [|e sc IH]; intros E evs x H.
  - cbn in H. destruct evs as [|y evs]; [constructor|]. injection H as _ H. destruct evs; discriminate.
  - cbn [existsb] in E. apply orb_false_iff in E. destruct E as [E1 E2]. destruct e as [cs [| |]|]; try discriminate E1; cbn [evs_of] in H; [| |exact (IH E2 _ _ H)].
    all: destruct evs as [|y evs]; [constructor|]; injection H as <- H; constructor; [discriminate|]; exact (IH E2 _ _ H).
Qed.
Theorem pushed_prompt : forall nel lsps cr an o os rs e w, talk (at_start nel lsps cr an o true) (at_start nel lsps cr an o false) os = (rs, e) ->
  Forall (fun x => x <> DOut OpAbandon) (ops_at w os) -> no_failures w os -> pushes_after_lines nel lsps cr an o w os -> all_arrived w e -> left_room (read_sizes (ops_at w os)) (read_results (results_at w rs)) ->
  an (negb w) = false -> Forall plain_dop (ops_at (negb w) os) -> all_written (negb w) rs ->
  let sent := written (ops_at (negb w) os) in string_ok sent -> Forall (fun c => is_assigned c = true) sent -> lines_begin sent -> 
  (line_terminated sent -> heard w rs = sent) /\ (forall l u, sent = l ++ [0xA] ++ u -> exists v, heard w rs = l ++ [0xA] ++ v).
Proof.
  intros nel lsps cr an o os rs e w H NA NFL PL AR LR AN P AW sent OK AS LB. destruct (whole_pushed _ _ _ _ _ _ _ _ _ H NA NFL PL (fun _ => AR)) as (sc & tail & TL & NF & PP & TX & OE & R). rewrite (TL AR) in *. rewrite app_nil_r in *. clear TL.
  rewrite (end_sent _ _ _ _ _ _ _ _ _ H AN P AW) in TX. fold sent in TX. pose proof (pushed_gives _ (nel w) (lsps w) _ _ OK AS LB TX PP) as G.
  destruct (received_is_prefix _ _ _ _ _ _ _ _ NF G R) as [[held X] _]. fold (heard w rs) in X.
  assert (DH : delivered (read_results (results_at w rs)) = heard w rs) by (symmetry; exact (ReadProps.received_delivered _ _ _ _ _ _ (wf_new _ _) NF R)).
  assert (HO : holds (nel w) (lsps w) sc [] (read_sizes (ops_at w os)) (read_results (results_at w rs)) (din (here (end_of w e))) held).
  { split; [now rewrite app_nil_r|]. rewrite DH, <- X. exact G. }
  assert (ET : forall t, t <> [] -> ended_text t = t \/ ended_text t = t ++ [0xA]).
  { intros t NT. unfold ended_text. destruct (last_opt t) as [c|] eqn:EL; [destruct (c =? 0xA); auto|]. apply last_opt_none in EL. contradiction. }
  assert (FIRST : line_terminated sent -> heard w rs = sent).
  { intro LT. assert (ES : ended_text sent = sent) by (destruct LT as [->|[t ->]]; [reflexivity|]; unfold ended_text; rewrite last_opt_snoc; reflexivity). rewrite ES in X.
    assert (HN : held = []); [|subst held; now rewrite app_nil_r in X]. destruct LT as [LT|[t LT]]; [rewrite LT in X; symmetry in X; apply app_eq_nil in X; now destruct X|].
    destruct (room_state _ _ _ _ _ _ _ _ HO LR) as (W & A & I & [(Q & _)|(evs & E1 & E2 & E3 & E4)]); [exact Q|].
    destruct (absorb_last _ _ _ _ _ I E4) as [(Q & _)|(y & _ & _ & NG & _)]; [exact Q|]. exfalso. apply NG.
    assert (NE : existsb TalkProps.is_end sc = false).
    { apply not_true_is_false. intro K. apply existsb_exists in K. destruct K as (ev & K1 & K2). destruct ev as [cs [| |]|]; try discriminate K2. exact (E2 _ K1). }
    pose proof (ReadChunk.evs_text sc) as TE. rewrite E1, flat_map_app in TE. cbn [flat_map fst] in TE. rewrite !app_nil_r in TE. rewrite TX in TE.
    apply (feed_calm _ _ _ _ _ E3 (evs_before sc NE _ _ E1)); rewrite TE; [exact (sent_no_esc _ _ (ok_clean _ OK))|]. rewrite LT. destruct (as_sent_last (cr (negb w)) t) as [z ->]. apply last_opt_snoc. }
  split; [exact FIRST|]. intros l u EL. assert (NS : sent <> []) by (rewrite EL; destruct l; discriminate).
  destruct (ET sent NS) as [ES|ES].
  - exists u. rewrite <- EL. apply FIRST. unfold ended_text in ES. destruct (last_opt sent) as [c|] eqn:LS; [|apply last_opt_none in LS; contradiction]. destruct (N.eqb_spec c 0xA) as [->|NC].
    + right. now apply last_opt_some.
    + exfalso. apply (f_equal (@length N)) in ES. rewrite app_length in ES. cbn in ES. lia.
  - rewrite ES in X. destruct (lines_prompt _ _ _ _ _ _ _ _ HO LR) as [->|(m & -> & NM)].
    + rewrite app_nil_r in X. exists (u ++ [0xA]). rewrite <- X, EL, <- !app_assoc. reflexivity.
    + rewrite app_assoc in X. apply app_inj_tail in X. destruct X as [X _]. rewrite EL in X.
      assert (K : forall (l h m : list N) u, l ++ [0xA] ++ u = h ++ m -> ~ In 0xA m -> exists v, h = l ++ [0xA] ++ v).
      { clear. intros l. induction l as [|c l IH]; intros h m u E NM.
        - destruct h as [|d h]; cbn in E; [exfalso; apply NM; rewrite <- E; now left|]. injection E as <- E. now exists h.
        - destruct h as [|d h]; cbn in E; [exfalso; apply NM; rewrite <- E; right; apply in_or_app; right; now left|]. injection E as <- E. destruct (IH h m u E NM) as [v ->]. now exists v. }
      exact (K _ _ _ _ X NM).
Qed.

(** * Whole lines *)
Theorem pushed_talk_lines : forall nel lsps cr an o os rs e w, talk (at_start nel lsps cr an o true) (at_start nel lsps cr an o false) os = (rs, e) ->
  Forall (fun x => x <> DOut OpAbandon) (ops_at w os) -> no_failures w os -> pushes_after_lines nel lsps cr an o w os -> closes_last (negb w) os ->
  an (negb w) = false -> o (negb w) = [] -> Forall plain_dop (ops_at (negb w) os) -> Forall line_op (outs (ops_at (negb w) os)) -> all_written (negb w) rs ->
  let sent := written (ops_at (negb w) os) in Forall (fun c => is_assigned c = true) sent -> lines_begin sent ->
  (exists more, sent = heard w rs ++ more) /\ (reached_end (read_results (results_at w rs)) -> heard w rs = sent) /\
  (all_arrived w e -> left_room (read_sizes (ops_at w os)) (read_results (results_at w rs)) -> heard w rs = sent).
Proof.
  intros nel lsps cr an o os rs e w H NA NFL PL OV AN EO P L AW sent AS LB. destruct (lines_written _ _ _ _ _ _ _ _ _ H AN EO P L AW) as [OK LT]. fold sent in OK, LT.
  assert (ES : ended_text sent = sent) by (destruct LT as [->|[t ->]]; [reflexivity|]; unfold ended_text; rewrite last_opt_snoc; reflexivity).
  destruct (pushed_heard _ _ _ _ _ _ _ _ w H NA NFL PL OV AN P AW OK AS LB) as [X Y]. fold sent in X, Y. rewrite ES in X, Y. split; [exact X|]. split; [exact Y|].
  intros AR LR. exact (proj1 (pushed_prompt _ _ _ _ _ _ _ _ w H NA NFL PL AR LR AN P AW OK AS LB) LT).
Qed.

(** * Reading until all is heard *)
Lemma one_more_push : forall nel lsps cr an o os rs e w b m r me', talk (at_start nel lsps cr an o true) (at_start nel lsps cr an o false) os = (rs, e) ->
  Forall (fun x => x <> DOut OpAbandon) (ops_at w os) -> closes_last (negb w) os -> (136 <= b)%nat -> (length (emitted (inner (dout (here (end_of (negb w) e))))) <= m)%nat ->
  side_step (end_of w e) (end_of (negb w) e) (TRead b (Some (m, Active))) = (r, me') ->
  exists s cs, r = DGot (ROk (str_len cs) s) cs /\ (taken me' = length (emitted (inner (dout (here (end_of (negb w) e))))) \/ cs <> [] /\ pending (din (here me')) = pending (din (here (end_of w e))) \/
    is_active (pending (din (here (end_of w e)))) = false /\ pending (din (here me')) = Active).
Proof.
  intros nel lsps cr an o os rs e w b m r me' H NA CC B M ST. destruct (end_pushes _ _ _ _ _ w _ _ _ H) as (sc & [A TX C D E] & _). set (me := end_of w e) in *. set (you := end_of (negb w) e) in *.
  cbn [side_step do_dop] in ST. unfold duplex_read in ST. cbn [din dout dscript] in ST. destruct (read (din (here me)) (offer me you (Some (m, Active))) b) as [[[x cs] i] sc'] eqn:ER. cbn [dscript] in ST.
  assert (W : wf (din (here me))).
  { specialize (A []). pose proof (duplex_reads _ _ _ _ A NA) as R. cbn [din dscript new_duplexer] in R. exact (proj1 (reads_spec _ _ _ _ _ _ (wf_new _ _) R)). }
  assert (RR : r = DGot x cs) by (destruct sc'; [destruct (offer me you (Some (m, Active))) as [|[c s|] [|y l]]|]; injection ST as <- _; reflexivity). subst r.
  assert (DI : din (here me') = i) by (destruct sc'; [destruct (offer me you (Some (m, Active))) as [|[c s|] [|y l]]|]; injection ST as <-; reflexivity).
  assert (NO : exists s, x = ROk (str_len cs) s).
  { destruct (read_spec _ _ _ _ _ _ _ W ER) as (_ & _ & _ & Q). rewrite SizeProps.nbs_136 in Q. destruct Q as [(_ & L & _)|[(-> & _)|[(_ & EI & _)|(raw & s & n1 & cs2 & _ & _ & _ & _ & _ & _ & _ & [(-> & _)|(-> & _)])]]]; eauto; [lia|].
    unfold offer in EI. destruct (over me); cbn in EI; discriminate. }
  destruct NO as [s ->]. exists s, cs. split; [reflexivity|].
  unfold offer in ER, ST. destruct (over me) eqn:OV.
  - left. destruct (end_is_last _ _ _ _ _ _ _ _ w H CC OV) as [_ AR]. unfold all_arrived in AR. fold me you in AR. destruct sc'; injection ST as <-; exact AR.
  - destruct (read_one _ _ _ _ _ _ _ ER) as [[-> _]|[-> _]].
    + right. rewrite DI. destruct (read_spec _ _ _ _ _ _ _ W ER) as (_ & _ & _ & Q).
      destruct Q as [(Q & _)|[(_ & _ & _ & _ & _ & _ & [[Q1 Q2]|(Q1 & Q2 & _)])|[(Q & _)|(raw & s' & n1 & cs2 & EI & _)]]]; try discriminate Q; [left|right|cbn in EI; discriminate EI]; split; auto; rewrite Q2; reflexivity.
    + left. injection ST as <-. cbn [taken]. rewrite firstn_length. unfold incoming. rewrite skipn_length. lia.
Qed.
Lemma pushes_listen : forall nel lsps cr an o w os b m, pushes_after_lines nel lsps cr an o w os -> pushes_after_lines nel lsps cr an o w (os ++ [(w, TRead b (Some (m, Active)))]).
Proof.
  intros nel lsps cr an o w os b m P a b0 n c E. destruct c as [|z c _] using rev_ind; [apply app_inj_tail in E; destruct E; discriminate|]. apply (P a b0 n c).
  change (a ++ (w, TRead b0 (Some (n, Push))) :: c ++ [z]) with (a ++ ((w, TRead b0 (Some (n, Push))) :: c) ++ [z]) in E. rewrite app_assoc in E. apply app_inj_tail in E. now destruct E.
Qed.
Theorem pushed_delivered : forall nel lsps cr an o os rs e w b m k, talk (at_start nel lsps cr an o true) (at_start nel lsps cr an o false) os = (rs, e) ->
  Forall (fun x => x <> DOut OpAbandon) (ops_at w os) -> no_failures w os -> pushes_after_lines nel lsps cr an o w os -> closes_last (negb w) os ->
  an (negb w) = false -> Forall plain_dop (ops_at (negb w) os) -> all_written (negb w) rs ->
  let sent := written (ops_at (negb w) os) in string_ok sent -> Forall (fun c => is_assigned c = true) sent -> lines_begin sent -> line_terminated sent ->
  (136 <= b)%nat -> (length (emitted (inner (dout (here (end_of (negb w) e))))) <= m)%nat -> (str_len sent + 3 <= k)%nat ->
  heard w (fst (talk (at_start nel lsps cr an o true) (at_start nel lsps cr an o false) (os ++ listen w b m k))) = sent.
Proof.
  intros nel lsps cr an o os rs e w b m k H NA NFL PL CC AN P AW sent OK AS LB LT B M KB.
  set (T := fun k => talk (at_start nel lsps cr an o true) (at_start nel lsps cr an o false) (os ++ listen w b m k)).
  assert (ES : ended_text sent = sent) by (destruct LT as [->|[t ->]]; [reflexivity|]; unfold ended_text; rewrite last_opt_snoc; reflexivity).
  assert (INV : forall k, let '(rs', e') := T k in
    Forall (fun x => x <> DOut OpAbandon) (ops_at w (os ++ listen w b m k)) /\ (no_failures w (os ++ listen w b m k) /\ pushes_after_lines nel lsps cr an o w (os ++ listen w b m k)) /\ closes_last (negb w) (os ++ listen w b m k) /\
    ops_at (negb w) (os ++ listen w b m k) = ops_at (negb w) os /\ results_at (negb w) rs' = results_at (negb w) rs /\ end_of (negb w) e' = end_of (negb w) e).
  { clear k KB. induction k as [|k IH].
    - unfold T. cbn [listen repeat]. rewrite app_nil_r, H. split; [exact NA|]. split; [split; assumption|]. split; [exact CC|]. repeat split.
    - unfold T in *. rewrite listen_snoc, app_assoc, talk_app. destruct (talk (at_start nel lsps cr an o true) (at_start nel lsps cr an o false) (os ++ listen w b m k)) as [r1 e1]. destruct IH as (I1 & [I2 I2'] & I3 & I4 & I5 & I6).
      assert (TK : exists r e2, talk (fst e1) (snd e1) [(w, TRead b (Some (m, Active)))] = ([(w, r)], e2) /\ end_of (negb w) e2 = end_of (negb w) e1).
      { cbn [talk]. destruct w; destruct (side_step _ _ _) as [r x]; exists r; eexists; split; reflexivity. }
      destruct TK as (r & e2 & -> & EY). rewrite (ops_at_app w), (ops_at_app (negb w)), results_at_app.
      assert (Z1 : ops_at w [(w, TRead b (Some (m, Active)))] = [DRead b]) by (destruct w; reflexivity). assert (Z2 : ops_at (negb w) [(w, TRead b (Some (m, Active)))] = []) by (destruct w; reflexivity).
      assert (Z3 : results_at (negb w) [(w, r)] = []) by (destruct w; reflexivity). rewrite Z1, Z2, Z3, !app_nil_r.
      split; [apply Forall_app; split; [exact I1|]; constructor; [discriminate|constructor]|]. split; [split; [apply Forall_app; split; [exact I2|]; constructor; [intros _; exact Logic.I|constructor]|exact (pushes_listen _ _ _ _ _ _ _ _ _ I2')]|]. split; [exact (closes_snoc w _ _ I3)|].
      split; [exact I4|]. split; [exact I5|]. now rewrite EY. }
  assert (PRE : forall k, exists more, sent = heard w (fst (T k)) ++ more).
  { intro j. specialize (INV j). destruct (T j) as [rs' e'] eqn:ET. destruct INV as (I1 & [I2 I2'] & I3 & I4 & I5 & I6). cbn [fst]. unfold T in ET.
    pose proof (pushed_heard _ _ _ _ _ _ _ _ w ET I1 I2 I2' I3 AN) as TH. rewrite I4 in TH. unfold all_written in TH. rewrite I5 in TH. destruct (TH P AW OK AS LB) as [X _]. fold sent in X. rewrite ES in X. exact X. }
  set (ALL := fun x => (taken x =? length (emitted (inner (dout (here (end_of (negb w) e))))))%nat).
  set (phi := fun x => if ALL x then 2%nat else if is_active (pending (din (here x))) then 1%nat else 0%nat).
  assert (STEP : forall k, heard w (fst (T k)) = sent \/ (k <= str_len (heard w (fst (T k))) + phi (end_of w (snd (T k))))%nat).
  { clear k KB. induction k as [|k IH]; [right; lia|].
    pose proof (INV k) as IK. pose proof (INV (S k)) as IK1. pose proof (PRE (S k)) as PK. unfold T in IH, IK, IK1, PK |- *. rewrite listen_snoc, app_assoc, talk_app in IK1, PK |- *.
    destruct (talk (at_start nel lsps cr an o true) (at_start nel lsps cr an o false) (os ++ listen w b m k)) as [r1 e1] eqn:ET. destruct IK as (I1 & [I2 I2'] & I3 & I4 & I5 & I6).
    destruct (side_step (end_of w e1) (end_of (negb w) e1) (TRead b (Some (m, Active)))) as [r me'] eqn:ST.
    assert (TK : exists e2, talk (fst e1) (snd e1) [(w, TRead b (Some (m, Active)))] = ([(w, r)], e2) /\ end_of w e2 = me' /\ end_of (negb w) e2 = end_of (negb w) e1).
    { cbn [talk]. destruct w; cbn [negb end_of] in ST |- *; rewrite ST; eexists; (split; [reflexivity|]); split; reflexivity. }
    destruct TK as (e2 & TK & EM & EY). rewrite TK in *. cbn [fst snd] in *. destruct IK1 as (J1 & [J2 J2'] & J3 & J4 & J5 & J6).
    rewrite <- I6 in M. destruct (one_more_push _ _ _ _ _ _ _ _ w b m r me' ET I1 I3 B M ST) as (s & cs & -> & ALT).
    assert (HD : heard w (r1 ++ [(w, DGot (ROk (str_len cs) s) cs)]) = heard w r1 ++ cs).
    { unfold heard. rewrite results_at_app. assert (RW : results_at w [(w, DGot (ROk (str_len cs) s) cs)] = [DGot (ROk (str_len cs) s) cs]) by (destruct w; reflexivity). rewrite RW. unfold read_results. rewrite flat_map_app. cbn [flat_map app]. unfold received. rewrite flat_map_app. cbn. now rewrite app_nil_r. }
    rewrite HD in *. destruct PK as [more PK]. rewrite EM, Utf8Facts.str_len_app.
    assert (DONE : (str_len cs + 4 <= b)%nat -> taken me' = length (emitted (inner (dout (here (end_of (negb w) e2))))) -> heard w r1 ++ cs = sent).
    { intros ROOM AA. rewrite <- HD. assert (FULL : talk (at_start nel lsps cr an o true) (at_start nel lsps cr an o false) ((os ++ listen w b m k) ++ [(w, TRead b (Some (m, Active)))]) = (r1 ++ [(w, DGot (ROk (str_len cs) s) cs)], e2)) by (rewrite talk_app, ET, TK; reflexivity).
      pose proof (pushed_prompt _ _ _ _ _ _ _ _ w FULL J1 J2 J2') as TP. rewrite J4 in TP. unfold all_written in TP. rewrite J5 in TP. apply (fun a l => proj1 (TP a l AN P AW OK AS LB) LT).
      - unfold all_arrived. now rewrite EM.
      - exists (read_sizes (ops_at w (os ++ listen w b m k))), b, (read_results (results_at w r1)), (str_len cs), s, cs. split; [|split; [|exact ROOM]].
        + rewrite ops_at_app. unfold read_sizes. rewrite flat_map_app. f_equal. destruct w; reflexivity.
        + rewrite results_at_app. unfold read_results. rewrite flat_map_app. f_equal. destruct w; reflexivity. }
    assert (MONO : heard w r1 = sent -> heard w r1 ++ cs = sent).
    { intro EQ. rewrite EQ, <- app_assoc in PK. rewrite <- (app_nil_r sent) in PK at 1. apply app_inv_head in PK. symmetry in PK. apply app_eq_nil in PK. destruct PK as [-> _]. now rewrite EQ, app_nil_r. }
    destruct IH as [IH|IH]; [left; exact (MONO IH)|].
    assert (PC : cs <> [] -> (1 <= str_len cs)%nat) by (intro NC; destruct cs as [|c cs']; [congruence|]; cbn; pose proof (utf8_len_pos c); lia).
    assert (UP : ALL (end_of w e1) = true -> ALL me' = true).
    { unfold ALL. rewrite !Nat.eqb_eq. intro E1. cbn [side_step] in ST. destruct (do_dop _ _) as [r0 d]. unfold offer, incoming in ST. rewrite I6, E1 in ST. destruct (over (end_of w e1)).
      + destruct (dscript d); injection ST as _ <-; cbn [taken]; rewrite ?E1, ?I6; reflexivity.
      + destruct (dscript d); injection ST as _ <-; cbn [taken]; [|rewrite ?E1, ?I6; reflexivity]. rewrite firstn_length, skipn_length, ?E1, ?I6. lia. }
    assert (FINI : ALL me' = true -> heard w r1 ++ cs = sent \/ (S k <= str_len (heard w r1) + str_len cs + phi me')%nat).
    { intro AA. destruct (Nat.le_gt_cases (str_len cs + 4) b) as [RM|RM].
      - left. apply DONE; [exact RM|]. unfold ALL in AA. apply Nat.eqb_eq in AA. now rewrite EY, I6.
      - right. unfold phi in *. rewrite AA. destruct (ALL (end_of w e1)); [|destruct (is_active _)]; lia. }
    destruct ALT as [ALT|[[ALT AP]|[AN1 AP]]].
    - apply FINI. unfold ALL. apply Nat.eqb_eq. now rewrite <- I6.
    - destruct (ALL me') eqn:AM; [apply FINI; reflexivity|]. right. specialize (PC ALT). unfold phi in *. rewrite AM, AP. destruct (ALL (end_of w e1)); [discriminate (UP eq_refl)|]. lia.
    - destruct (ALL me') eqn:AM; [apply FINI; reflexivity|]. right. unfold phi in *. rewrite AM, AP. destruct (ALL (end_of w e1)); [discriminate (UP eq_refl)|]. rewrite AN1 in IH. cbn [is_active]. lia. }
  destruct (STEP k) as [Q|Q]; [exact Q|]. exfalso. destruct (PRE k) as [more PK]. apply (f_equal str_len) in PK. rewrite Utf8Facts.str_len_app in PK. unfold phi in Q. destruct (ALL _) in Q; [|destruct (is_active _) in Q]; lia.
Qed.
