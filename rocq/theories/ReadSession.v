(** Whole reading sessions: what is delivered is a function of the script alone. *)
From Coq Require Import NArith Arith List Bool Lia ZifyBool ZifyNat ZifyN.
From Verif Require Import Base Ucd Norm Chars TextTables TextUtils Utf8 Input UcdFacts NormFacts CharFacts SpecText TextFacts PipelineFacts IsoFacts Utf8Facts ReadFacts ReadInv.
Import ListNotations.
Local Open Scope N_scope.
Arguments N.add : simpl never.
Arguments N.leb : simpl never.
Arguments N.ltb : simpl never.
Arguments N.eqb : simpl never.
Local Opaque pipeline.

Fixpoint feed (nel lsps : bool) (a : abs) (evs : list (list N * status)) : list N * abs :=
  match evs with
  | [] => ([], a)
  | (raw, s) :: t => let '(new, a') := absorb nel lsps a raw s in
                     let '(new', a'') := feed nel lsps a' t in (new ++ new', a'')
  end.

Lemma feed_app : forall nel lsps e1 e2 a, feed nel lsps a (e1 ++ e2) =
  let '(n1, a1) := feed nel lsps a e1 in let '(n2, a2) := feed nel lsps a1 e2 in (n1 ++ n2, a2).
Proof.
  induction e1 as [|[raw s] e1 IH]; intros e2 a; cbn [app feed].
  - destruct (feed nel lsps a e2); reflexivity.
  - destruct (absorb nel lsps a raw s) as [n a']. rewrite IH. destruct (feed nel lsps a' e1) as [n1 a1].
    destruct (feed nel lsps a1 e2). now rewrite app_assoc.
Qed.

Lemma feed_inv : forall nel lsps evs D a new a', ainv D a -> feed nel lsps a evs = (new, a') -> ainv (D ++ new) a'.
Proof.
  induction evs as [|[raw s] evs IH]; intros D a new a' I H; cbn [feed] in H.
  - injection H as <- <-. now rewrite app_nil_r.
  - destruct (absorb nel lsps a raw s) as [n1 a1] eqn:E1. destruct (feed nel lsps a1 evs) as [n2 a2] eqn:E2. injection H as <- <-.
    rewrite app_assoc. eapply IH; [|exact E2]. eapply ainv_absorb; eauto.
Qed.

(** successful reads of the underlying stream during a session *)
Inductive took : list event -> list (list N * status) -> list event -> Prop :=
| took_refl : forall sc, took sc [] sc
| took_ok : forall sc raw s sc1 evs sc2, inner_read sc = (Some (raw, s), sc1) -> took sc1 evs sc2 -> took sc ((raw, s) :: evs) sc2
| took_fail : forall sc sc1 evs sc2, inner_read sc = (None, sc1) -> took sc1 evs sc2 -> took sc evs sc2.

Theorem reads_spec : forall sizes i script rs j script', wf i -> reads i script sizes = (rs, j, script') ->
  wf j /\ nel_compat j = nel_compat i /\ lsps_compat j = lsps_compat i /\
  exists evs new, took script evs script' /\ feed (nel_compat i) (lsps_compat i) (abs_of i) evs = (new, abs_of j) /\
    avail i ++ new = delivered rs ++ avail j.
Proof.
  induction sizes as [|b sizes IH]; intros i script rs j script' W H; cbn [reads] in H.
  - injection H as <- <- <-. split; [exact W|]. split; [reflexivity|]. split; [reflexivity|]. exists [], []. split; [constructor|]. split; [reflexivity|].
    now rewrite app_nil_r.
  - destruct (read i script b) as [[[r cs] i1] sc1] eqn:ER. destruct (reads i1 sc1 sizes) as [[rs' j'] sc2] eqn:ERS.
    injection H as <- <- <-. destruct (read_spec _ _ _ _ _ _ _ W ER) as (W1 & N1 & L1 & C).
    destruct (IH _ _ _ _ _ W1 ERS) as (W2 & N2 & L2 & evs & new & TK & FD & AV).
    split; [exact W2|]. split; [congruence|]. split; [congruence|]. rewrite N1, L1 in FD.
    unfold delivered in *. cbn [flat_map snd].
    destruct C as [(_ & _ & -> & -> & ->)|[(_ & -> & _ & A & AB & _)|[(_ & EI & -> & A & AB & _)|(raw & s & n & cs2 & EI & _ & _ & AB & -> & -> & _)]]].
    + exists evs, new. auto.
    + exists evs, new. rewrite AB in FD. split; [exact TK|]. split; [exact FD|]. rewrite A, <- !app_assoc. now rewrite AV.
    + exists evs, new. rewrite AB in FD. split; [eapply took_fail; eauto|]. split; [exact FD|].
      rewrite A in AV. cbn in AV. rewrite AV. now rewrite app_assoc.
    + exists ((raw, s) :: evs), ((cs2 ++ avail i1) ++ new). split; [eapply took_ok; eauto|].
      cbn [feed]. rewrite AB, FD. split; [reflexivity|]. rewrite <- !app_assoc. now rewrite AV.
Qed.

(** the successful reads a script offers up to the end of the stream *)
Fixpoint evs_of (script : list event) : list (list N * status) :=
  match script with
  | [] => [([], End)]
  | Chunk cs End :: _ => [(cs, End)]
  | Chunk cs s :: t => (cs, s) :: evs_of t
  | Fail :: t => evs_of t
  end.

Lemma took_nil_script : forall sc evs sc', took sc evs sc' -> sc = [] -> sc' = [] /\ exists k, evs = repeat ([], End) k.
Proof.
  induction 1 as [sc|sc raw s sc1 evs sc2 EI TK IH|sc sc1 evs sc2 EI TK IH]; intros ->.
  - split; [reflexivity|]. now exists 0%nat.
  - cbn in EI. injection EI as <- <- <-. destruct (IH eq_refl) as [-> [k ->]]. split; [reflexivity|]. now exists (S k).
  - discriminate.
Qed.

Lemma took_end : forall sc evs sc', took sc evs sc' -> (exists raw, In (raw, End) evs) ->
  exists k, evs = evs_of sc ++ repeat ([], End) k /\ sc' = [].
Proof.
  induction 1 as [sc|sc raw s sc1 evs sc2 EI TK IH|sc sc1 evs sc2 EI TK IH]; intros [r HR].
  - destruct HR.
  - destruct sc as [|[cs s'|] t]; cbn in EI; [|destruct s'|discriminate]; injection EI as <- <- <-; cbn [evs_of].
    + destruct (took_nil_script _ _ _ TK eq_refl) as [-> [k ->]]. now exists k.
    + destruct HR as [HR|HR]; [congruence|]. destruct (IH (ex_intro _ r HR)) as (k & -> & ->). now exists k.
    + destruct HR as [HR|HR]; [congruence|]. destruct (IH (ex_intro _ r HR)) as (k & -> & ->). now exists k.
    + destruct (took_nil_script _ _ _ TK eq_refl) as [-> [k ->]]. now exists k.
  - destruct sc as [|[cs s'|] t]; cbn in EI; [discriminate|destruct s'; discriminate|]. injection EI as <-. cbn. apply IH. eauto.
Qed.

Lemma evs_of_end : forall sc, exists evs raw, evs_of sc = evs ++ [(raw, End)].
Proof.
  induction sc as [|[cs s|] t IH]; cbn.
  - exists [], []. reflexivity.
  - destruct IH as (e & r & E). destruct s; [exists ((cs, Active) :: e), r|exists ((cs, Push) :: e), r|exists [], cs]; rewrite ?E; reflexivity.
  - exact IH.
Qed.

Definition abs0 : abs := mkabs [] (true, Ground true) true.
Lemma abs_new : forall nel lsps, abs_of (new_input nel lsps) = abs0 /\ avail (new_input nel lsps) = [].
Proof. intros. split; [reflexivity|]. unfold avail, ready, rest. cbn. apply pipeline_nil. Qed.

(** the conversion of a script *)
Definition converted_stream (nel lsps : bool) (script : list event) : list N := fst (feed nel lsps abs0 (evs_of script)).

Lemma feed_finals : forall nel lsps k a, a_res a = [] -> snd (a_ts a) = Ground true -> fst (feed nel lsps a (repeat ([], End) k)) = [].
Proof.
  induction k as [|k IH]; intros a H1 H2; [reflexivity|]. cbn [repeat feed]. rewrite absorb_final by assumption.
  specialize (IH (mkabs [] (true, Ground true) false) eq_refl eq_refl). destruct (feed _ _ _ _). exact IH.
Qed.

Lemma feed_evs_final : forall nel lsps sc new a, feed nel lsps abs0 (evs_of sc) = (new, a) ->
  a_res a = [] /\ snd (a_ts a) = Ground true /\ (new = [] \/ ends_LF new) /\ ainv new a.
Proof.
  intros nel lsps sc new a H. pose proof (feed_inv _ _ _ _ _ _ _ ainv_new H) as I. cbn [app] in I.
  destruct (evs_of_end sc) as (evs & raw & E). rewrite E, feed_app in H.
  destruct (feed nel lsps abs0 evs) as [n1 a1] eqn:E1. cbn [feed] in H.
  destruct (absorb nel lsps a1 raw End) as [n2 a2] eqn:E2. injection H as <- <-. rewrite app_nil_r in *.
  pose proof (feed_inv _ _ _ _ _ _ _ ainv_new E1) as I1. cbn [app] in I1.
  destruct (absorb_end _ _ _ _ _ _ _ I1 E2) as (R & (b & S & ->) & EN). auto.
Qed.

Lemma reads_snoc : forall sizes b i script rs j sc, reads i script (sizes ++ [b]) = (rs, j, sc) ->
  exists rs1 j1 sc1 r cs, reads i script sizes = (rs1, j1, sc1) /\ read j1 sc1 b = (r, cs, j, sc) /\ rs = rs1 ++ [(r, cs)].
Proof.
  induction sizes as [|x sizes IH]; intros b i script rs j sc H; cbn [app reads] in *.
  - destruct (read i script b) as [[[r cs] i'] sc'] eqn:E. injection H as <- <- <-. exists [], i, script, r, cs. auto.
  - destruct (read i script x) as [[[r cs] i'] sc'] eqn:E. destruct (reads i' sc' (sizes ++ [b])) as [[rs2 j2] sc2] eqn:E2.
    injection H as <- <- <-. destruct (IH _ _ _ _ _ _ E2) as (rs1 & j1 & sc1 & r1 & cs1 & A & B & ->).
    rewrite A. exists ((r, cs) :: rs1), j1, sc1, r1, cs1. auto.
Qed.
Lemma reads_length : forall sizes i script rs j sc, reads i script sizes = (rs, j, sc) -> length rs = length sizes.
Proof.
  induction sizes as [|x sizes IH]; intros i script rs j sc H; cbn [reads] in H; [now injection H as <- <- <-|].
  destruct (read i script x) as [[[r cs] i'] sc']. destruct (reads i' sc' sizes) as [[rs2 j2] sc2] eqn:E2. injection H as <- <- <-.
  cbn. f_equal. eauto.
Qed.

(** the last call reported the end of the stream *)
Definition ended (rs : list (read_result * list N)) : Prop := exists rs' n cs, rs = rs' ++ [(ROk n End, cs)].

Theorem session_end : forall nel lsps script sizes rs j script', reads (new_input nel lsps) script sizes = (rs, j, script') -> ended rs ->
  delivered rs = converted_stream nel lsps script /\ avail j = [] /\ a_res (abs_of j) = [] /\ queue j = [].
Proof.
  intros nel lsps script sizes rs j script' H (rs' & n & cs & ->).
  pose proof (reads_length _ _ _ _ _ _ H) as L. destruct sizes as [|b sizes _] using rev_ind; [rewrite app_length in L; cbn in L; lia|].
  destruct (reads_snoc _ _ _ _ _ _ _ H) as (rs1 & j1 & sc1 & r & cs' & R1 & R2 & E). apply app_inj_tail in E. destruct E as [<- E]. injection E as <- <-.
  destruct (reads_spec _ _ _ _ _ _ (wf_new nel lsps) R1) as (W1 & N1 & L1 & evs & new & TK & FD & AV).
  destruct (abs_new nel lsps) as [A0 V0]. rewrite A0 in FD. rewrite V0 in AV. cbn [app nel_compat lsps_compat new_input] in FD, AV, N1, L1.
  destruct (read_spec _ _ _ _ _ _ _ W1 R2) as (W2 & _ & _ & C).
  destruct C as [(X & _)|[(X & _)|[(X & _)|(raw & s & n1 & cs2 & EI & _ & _ & AB & -> & EN & _ & C)]]]; try discriminate.
  destruct C as [(X & A & P)|(X & _)]; [|discriminate]. injection X as X1 X2. subst s.
  rewrite N1, L1 in AB.
  assert (TK2 : took script (evs ++ [(raw, End)]) script').
  { clear - TK EI. induction TK as [sc|sc raw' s' sc0 evs sc2 EI' TK IH|sc sc0 evs sc2 EI' TK IH].
    - eapply took_ok; [exact EI|constructor].
    - cbn. eapply took_ok; [exact EI'|auto].
    - eapply took_fail; [exact EI'|auto]. }
  destruct (took_end _ _ _ TK2) as (k & E & ->).
  { exists raw. apply in_or_app. right. now left. }
  assert (FD2 : feed nel lsps abs0 (evs ++ [(raw, End)]) = (new ++ n1, abs_of j)).
  { rewrite feed_app, FD. cbn [feed]. rewrite AB. now rewrite app_nil_r. }
  rewrite E, feed_app in FD2. destruct (feed nel lsps abs0 (evs_of script)) as [nw af] eqn:EF.
  destruct (feed_evs_final _ _ _ _ _ EF) as (F1 & F2 & _ & _).
  pose proof (feed_finals nel lsps k af F1 F2) as FF. destruct (feed nel lsps af (repeat ([], End) k)) as [nk ak] eqn:EK.
  cbn in FF. subst nk. rewrite app_nil_r in FD2. injection FD2 as FD2 FA.
  assert (AR : a_res (abs_of j) = []).
  { destruct (absorb_end nel lsps new (abs_of j1) raw n1 (abs_of j)) as (R & _); [|exact AB|exact R].
    exact (feed_inv _ _ _ _ _ _ _ ainv_new FD). }
  split; [|split; [exact A|split; [exact AR|]]].
  - unfold converted_stream. rewrite EF. cbn. rewrite FD2. unfold delivered in *. rewrite flat_map_app. cbn [flat_map snd].
    rewrite A, app_nil_r in EN. subst n1. rewrite app_nil_r. rewrite AV. rewrite <- app_assoc. reflexivity.
  - cbn in AR. unfold residue, rest in AR. unfold avail in A. apply app_eq_nil in A. destruct A as [A1 A2].
    unfold ready in A1. apply app_eq_nil in A1. destruct A1 as [_ A1].
    rewrite <- (firstn_skipn (quick j) (queue j)), A1. cbn [app].
    rewrite (blocks_split (skipn (quick j) (queue j))), AR.
    destruct (complete (skipn (quick j) (queue j))) as [|y l] eqn:EC; [reflexivity|].
    exfalso. unfold rest in A2. rewrite EC in A2. revert A2. apply pipeline_nonnil. discriminate.
Qed.

(** the whole conversion is a Basic Text stream *)
Theorem converted_ok : forall nel lsps script, is_basic_text (converted_stream nel lsps script) = true /\ line_terminated (converted_stream nel lsps script).
Proof.
  intros nel lsps script. unfold converted_stream. destruct (feed nel lsps abs0 (evs_of script)) as [new a] eqn:E. cbn [fst].
  destruct (feed_evs_final _ _ _ _ _ E) as (_ & _ & EN & I). split.
  - apply basic_text_iff. split; [apply substr_ok_iff; split; apply I|]. split; [apply I|].
    destruct EN as [->|[t ->]]; [reflexivity|]. rewrite last_opt_snoc. exact end_LF.
  - destruct EN as [->|[t ->]]; [now left|right; eauto].
Qed.

(** anything delivered so far is a prefix of a valid stream *)
Theorem delivered_substr : forall nel lsps script sizes rs j script', reads (new_input nel lsps) script sizes = (rs, j, script') ->
  is_basic_text_substr (delivered rs) = true /\ starts_ok (delivered rs).
Proof.
  intros nel lsps script sizes rs j script' R1.
  destruct (reads_spec _ _ _ _ _ _ (wf_new nel lsps) R1) as (W1 & N1 & L1 & evs & new & TK & FD & AV).
  destruct (abs_new nel lsps) as [A0 V0]. rewrite A0 in FD. rewrite V0 in AV. cbn [app] in AV.
  pose proof (feed_inv _ _ _ _ _ _ _ ainv_new FD) as I. cbn [app] in I. split.
  - apply (substr_app _ (avail j)). rewrite <- AV. apply substr_ok_iff. split; apply I.
  - intros c t E. pose proof (proj1 (starts_ok_iff _) (i_start _ _ I)) as S. rewrite AV, E in S. exact (S c (t ++ avail j) eq_refl).
Qed.

(** * Termination *)
Definition finalb (a : abs) : bool := match a_res a with [] => is_ground_nl (snd (a_ts a)) | _ => false end.
Fixpoint future (nel lsps : bool) (a : abs) (script : list event) : nat :=
  match script with
  | [] => if finalb a then 0 else length (fst (absorb nel lsps a [] End)) + 2
  | Fail :: t => 1 + future nel lsps a t
  | Chunk cs End :: _ => let '(new, a') := absorb nel lsps a cs End in length new + 2 + 0
  | Chunk cs s :: t => let '(new, a') := absorb nel lsps a cs s in length new + 2 + future nel lsps a' t
  end%nat.
Definition measure (i : input) (script : list event) : nat :=
  (length (avail i) + (if is_active (pending i) then 0 else 1) + future (nel_compat i) (lsps_compat i) (abs_of i) script)%nat.

Lemma final_intro : forall a, a_res a = [] -> snd (a_ts a) = Ground true -> finalb a = true.
Proof. intros a H1 H2. unfold finalb. now rewrite H1, H2. Qed.
Lemma final_elim : forall a, finalb a = true -> a_res a = [] /\ snd (a_ts a) = Ground true.
Proof. intros a H. unfold finalb in H. destruct (a_res a); [|discriminate]. destruct (snd (a_ts a)); try discriminate. cbn in H. now subst. Qed.

Lemma read_progress : forall D i script b r cs j script', wf i -> ainv D (abs_of i) -> (NORMALIZATION_BUFFER_SIZE <= b)%nat ->
  read i script b = (r, cs, j, script') ->
  (exists D', ainv D' (abs_of j)) /\ ((exists n, r = ROk n End) \/ (measure j script' < measure i script)%nat).
Proof.
  intros D i script b r cs j script' W I B H. destruct (read_spec _ _ _ _ _ _ _ W H) as (W1 & N1 & L1 & C).
  unfold measure. rewrite N1, L1.
  destruct C as [(_ & X & _)|[(_ & -> & _ & A & AB & _ & K)|[(_ & EI & -> & A & AB & _ & P & _)|(raw & s & n & cs2 & EI & _ & PA & AB & -> & -> & _ & K)]]].
  - lia.
  - rewrite AB. split; [eauto|]. right. rewrite A, app_length. destruct K as [[K ->]|(K & -> & KA)].
    + destruct cs; [congruence|]. cbn [length]. lia.
    + rewrite K. cbn [is_active]. lia.
  - rewrite AB. split; [eauto|]. right. rewrite A, P. destruct script as [|[cs s|] t]; cbn in EI; [discriminate|destruct s; discriminate|].
    injection EI as <-. cbn [future length]. lia.
  - split; [eexists; eapply ainv_absorb; eauto|]. rewrite PA.
    assert (FE : s = End -> finalb (abs_of j) = true).
    { intros ->. destruct (absorb_end _ _ _ _ _ _ _ I AB) as (F1 & (bb & F2 & ->) & _). now apply final_intro. }
    assert (PJ : ((if is_active (pending j) then 0 else 1) <= 1)%nat) by (destruct (is_active (pending j)); lia).
    destruct script as [|[cs s'|] t]; cbn in EI; [|destruct s'|discriminate]; injection EI as <- <- <-; cbn [future].
    + destruct (finalb (abs_of i)) eqn:EF.
      * apply final_elim in EF. destruct EF as [F1 F2]. rewrite absorb_final in AB by assumption. injection AB as AB _.
        destruct cs2; [|discriminate]. destruct K as [(K & _)|(_ & _ & K)]; [left; eauto|congruence].
      * right. rewrite AB, FE by reflexivity. cbn [fst]. rewrite app_length. lia.
    + right. rewrite AB. rewrite app_length. lia.
    + right. rewrite AB. rewrite app_length. lia.
    + right. rewrite AB, FE by reflexivity. rewrite app_length. lia.
Qed.

Theorem reads_terminate : forall nel lsps script, exists n, forall sizes, (n <= length sizes)%nat ->
  Forall (fun b => (NORMALIZATION_BUFFER_SIZE <= b)%nat) sizes ->
  exists k rs j script', reads (new_input nel lsps) script (firstn k sizes) = (rs, j, script') /\ ended rs.
Proof.
  intros nel lsps script. exists (S (measure (new_input nel lsps) script)).
  assert (G : forall m i sc D sizes, wf i -> ainv D (abs_of i) -> (measure i sc < m)%nat -> (m <= length sizes)%nat ->
    Forall (fun b => (NORMALIZATION_BUFFER_SIZE <= b)%nat) sizes ->
    exists k rs j script', reads i sc (firstn k sizes) = (rs, j, script') /\ ended rs).
  { induction m as [|m IH]; intros i sc D sizes W I M LS HB; [lia|]. destruct sizes as [|b sizes]; [cbn in LS; lia|].
    inversion HB as [|? ? HB1 HB2]; subst. destruct (read i sc b) as [[[r cs] j] sc'] eqn:ER.
    destruct (read_progress _ _ _ _ _ _ _ _ W I HB1 ER) as [[D' I'] [[n ->]|P]].
    - exists 1%nat. cbn [firstn reads]. rewrite ER. do 3 eexists. split; [reflexivity|]. exists [], n, cs. reflexivity.
    - destruct (IH j sc' D' sizes) as (k & rs & j' & sc'' & R & E); auto; try (cbn in LS; lia).
      { destruct (read_spec _ _ _ _ _ _ _ W ER) as (W1 & _). exact W1. }
      exists (S k). cbn [firstn reads]. rewrite ER, R. do 3 eexists. split; [reflexivity|].
      destruct E as (rs' & n & c & ->). exists ((r, cs) :: rs'), n, c. reflexivity. }
  intros sizes LS HB. apply (G (S (measure (new_input nel lsps) script)) _ _ [] sizes (wf_new nel lsps)); auto.
  destruct (abs_new nel lsps) as [-> _]. exact ainv_new.
Qed.
