(** How much longer the conversion makes a text (C78). *)
From Coq Require Import NArith Arith List Bool Lia ZifyBool ZifyNat ZifyN.
From Verif Require Import Base Ucd UcdTables Norm Chars TextTables TextUtils UcdFacts NormFacts CharFacts SpecText TextFacts PipelineFacts IsoFacts ConcatFacts EdgeFacts
  Utf8 Utf8Facts Input SpecRead ReadFacts ReadProps.
Import ListNotations.
Local Open Scope N_scope.
Arguments N.add : simpl never.
Arguments N.leb : simpl never.
Arguments N.ltb : simpl never.
Arguments N.eqb : simpl never.

Fixpoint total (f : N -> nat) (s : list N) : nat := match s with [] => 0 | c :: t => f c + total f t end%nat.
Lemma total_app : forall f a b, total f (a ++ b) = (total f a + total f b)%nat.
Proof. induction a as [|c a IH]; intro b; [reflexivity|]. cbn [app total]. rewrite IH. lia. Qed.
Lemma total_flat : forall f (g : N -> list N) s, total f (flat_map g s) = total (fun c => total f (g c)) s.
Proof. induction s as [|c s IH]; [reflexivity|]. cbn [flat_map total]. now rewrite total_app, IH. Qed.
Lemma total_mono : forall f g s, (forall c, (f c <= g c)%nat) -> (total f s <= total g s)%nat.
Proof. intros f g s H. induction s as [|c s IH]; [reflexivity|]. cbn [total]. specialize (H c). lia. Qed.

Section Size.
Variable sz : N -> nat.
Hypothesis compose_sz : forall a b c, compose a b = Some c -> (sz c <= sz a + sz b)%nat.

Lemma ins_total : forall x l, total sz (ins x l) = (sz x + total sz l)%nat.
Proof. induction l as [|y l IH]; [reflexivity|]. cbn [ins]. destruct (_ && _); cbn [total]; [rewrite IH; lia|reflexivity]. Qed.
Lemma sort_total : forall l, total sz (sort_pending l) = total sz l.
Proof. unfold sort_pending. induction l as [|x l IH]; [reflexivity|]. cbn [fold_right total]. now rewrite ins_total, IH. Qed.
Lemma order_total : forall s p, total sz (order_go p s) = (total sz p + total sz s)%nat.
Proof.
  induction s as [|c s IH]; intro p; cbn [order_go total]; [rewrite sort_total; lia|]. destruct (ccc c =? 0).
  - rewrite total_app, sort_total. cbn [total]. rewrite IH. cbn [total]. lia.
  - rewrite IH, total_app. cbn [total]. lia.
Qed.
Lemma rc_total : forall s k b l, (total sz (rc k b l s) <= sz k + total sz b + total sz s)%nat.
Proof.
  induction s as [|c s IH]; intros k b l; cbn [rc total]; [lia|]. destruct l as [lc|].
  - destruct (ccc c <=? lc); [destruct (ccc c =? 0)|].
    + cbn [total]. rewrite total_app. specialize (IH c [] None). cbn [total] in IH. lia.
    + etransitivity; [apply IH|]. rewrite total_app. cbn [total]. lia.
    + destruct (compose k c) eqn:E; [apply compose_sz in E; etransitivity; [apply IH|]; lia|]. etransitivity; [apply IH|]. rewrite total_app. cbn [total]. lia.
  - destruct (compose k c) eqn:E; [apply compose_sz in E; etransitivity; [apply IH|]; lia|]. destruct (ccc c =? 0).
    + cbn [total]. specialize (IH c b None). lia.
    + etransitivity; [apply IH|]. rewrite total_app. cbn [total]. lia.
Qed.
Lemma nfc_total : forall s, (total sz (nfc s) <= total sz (flat_map cd s))%nat.
Proof.
  intro s. unfold nfc, nfd, order. assert (E := order_total (flat_map cd s) []). cbn [total Nat.add] in E. rewrite <- E. generalize (order_go [] (flat_map cd s)). clear E s.
  intro l.
  induction l as [|c l IH]; [reflexivity|]. cbn [recomp]. destruct (ccc c =? 0); cbn [total]; [|lia]. etransitivity; [apply rc_total|]. cbn [total]. lia.
Qed.

(** What a character can become, decomposed; and how it brings closer a U+34F
    in a long run of non-starters. *)
Definition ripe (c : N) : nat := if Nat.eqb (cl_leading c) (cl_len c) then cl_len c else cl_trailing c.
Definition piece (c : N) : nat := (total sz (cd c) + ripe c)%nat.
Hypothesis cgj_sz : (sz CGJ <= 26)%nat.
Hypothesis few_leading : forall c, (cl_leading c <= 4)%nat.
Lemma safe_total : forall s n, (n <= 30)%nat -> (total (fun c => total sz (cd c)) (stream_safe_go n s) <= n + total piece s)%nat.
Proof.
  assert (CG : total sz (cd CGJ) = sz CGJ) by (replace (cd CGJ) with [CGJ] by (vm_compute; reflexivity); cbn [total]; lia).
  assert (CN : forall n c, (count_next n c <= n + ripe c)%nat) by (intros n c; unfold count_next, ripe; destruct (Nat.eqb _ _); lia).
  induction s as [|c s IH]; intros n H; [cbn; lia|]. cbn [stream_safe_go]. unfold MAX_NONSTARTERS. pose proof (few_leading c). destruct (Nat.ltb 30 (n + cl_leading c)) eqn:E; cbn [total]; unfold piece at 1.
  - rewrite CG. assert (K : (count_next 0 c <= 30)%nat) by (apply next_le; [lia|]; apply Nat.leb_le; lia).
    specialize (IH _ K). pose proof (CN 0%nat c). lia.
  - assert (K : (count_next n c <= 30)%nat) by (apply next_le; [lia|]; apply Nat.leb_le; apply Nat.ltb_ge in E; lia). specialize (IH _ K). pose proof (CN n c). lia.
Qed.
(** … with U+34F around it if it is unassigned. *)
Definition weight (c : N) : nat := Nat.max (sz c) (if is_assigned c then total piece (cjk1 c) else 2 * sz CGJ + total piece (cjk1 c)).
Lemma iso_total : forall s need have, (total (fun c => total piece (cjk1 c)) (isolate_go need have s) <= (if need then sz CGJ else 0) + total weight s)%nat.
Proof.
  assert (CG : total piece (cjk1 CGJ) = sz CGJ).
  { replace (cjk1 CGJ) with [CGJ] by (vm_compute; reflexivity). cbn [total]. unfold piece. replace (ripe CGJ) with 0%nat by (vm_compute; reflexivity).
    replace (cd CGJ) with [CGJ] by (vm_compute; reflexivity). cbn [total]. lia. }
  induction s as [|c s IH]; intros need have; cbn [isolate_go total].
  - destruct need; cbn [total]; lia.
  - unfold weight at 1. destruct (is_assigned c) eqn:A; cbn [negb andb].
    + destruct need; cbn [andb orb]; [destruct (c =? CGJ); cbn [negb orb andb]|]; cbn [total]; rewrite ?CG; match goal with |- context [isolate_go ?n ?h s] => specialize (IH n h) end; cbn in IH; lia.
    + destruct (need && negb (c =? CGJ) || negb have); cbn [total]; rewrite ?CG; match goal with |- context [isolate_go ?n ?h s] => specialize (IH n h) end; cbn in IH; lia.
Qed.
Theorem pipeline_total : forall s, (total sz (pipeline s) <= total weight s)%nat.
Proof.
  intro s. unfold pipeline. etransitivity; [apply nfc_total|]. rewrite total_flat. unfold stream_safe. etransitivity; [apply safe_total; lia|].
  unfold cjk_compat_variants. rewrite total_flat. etransitivity; [apply iso_total|]. cbn. lia.
Qed.
Lemma weight_sz : forall c, (sz c <= weight c)%nat.
Proof. intro c. unfold weight. lia. Qed.

(** What a reader holds, at most. *)
Definition stock (i : input) : nat :=
  (total sz (iter i) + total weight (queue i) + (match st i with Cr => sz LF | Ff => sz SP | _ => 0 end) +
   (match last_opt (queue i) with Some c => if is_basic_text_end c then 0 else sz CGJ | None => 0 end))%nat.

Lemma next_stock : forall i c j, queue_next i = Some (c, j) -> (sz c + stock j <= stock i)%nat.
Proof.
  assert (LS : forall (a b : list N) x, (match last_opt b with Some c => if is_basic_text_end c then 0 else x | None => 0 end <=
    match last_opt (a ++ b) with Some c => if is_basic_text_end c then 0 else x | None => 0 end)%nat).
  { intros a b x. destruct b as [|y b]; [cbn; lia|]. destruct (exists_last (l := y :: b)) as (b' & z & E); [discriminate|]. rewrite E, app_assoc, !last_opt_snoc. reflexivity. }
  intros i c j H. unfold queue_next in H. unfold stock. destruct (quick i) as [|n].
  - destruct (iter i) as [|x it] eqn:EI.
    + destruct (last_boundary (queue i)) as [k|]; [|discriminate]. destruct (_ && _).
      * destruct (queue i) as [|y q]; [discriminate|]. injection H as <- <-. cbn [queue iter st set_q total]. pose proof (weight_sz y). pose proof (LS [y] q (sz CGJ)) as K. cbn [app] in K. lia.
      * destruct (pipeline (firstn k (queue i))) as [|y it'] eqn:EP; [discriminate|]. injection H as <- <-. cbn [queue iter st set_q total].
        pose proof (pipeline_total (firstn k (queue i))) as K. rewrite EP in K. cbn [total] in K. pose proof (LS (firstn k (queue i)) (skipn k (queue i)) (sz CGJ)) as L.
        rewrite firstn_skipn in L. rewrite <- (firstn_skipn k (queue i)) at 3. rewrite total_app. lia.
    + injection H as <- <-. cbn [queue iter st set_q total]. lia.
  - destruct (queue i) as [|y q]; [discriminate|]. injection H as <- <-. cbn [queue iter st set_q total]. pose proof (weight_sz y). pose proof (LS [y] q (sz CGJ)) as K. cbn [app] in K. lia.
Qed.
Lemma drain_stock : forall f room i cs e j, drain f room i = (cs, e, j) -> (total sz cs + stock j <= stock i)%nat.
Proof.
  induction f as [|f IH]; intros room i cs e j H; cbn [drain] in H; [injection H as <- <- <-; cbn; lia|].
  destruct (queue_next i) as [[c i']|] eqn:E; [|injection H as <- <- <-; cbn; lia]. apply next_stock in E. destruct (Nat.ltb _ _).
  - injection H as <- <- <-. cbn [total]. lia.
  - destruct (drain f _ i') as [[cs' e'] j'] eqn:ED. injection H as <- <- <-. apply IH in ED. cbn [total]. lia.
Qed.

(** What a piece of the queue costs. *)
Definition nonend (r : list N) : nat := match last_opt r with Some c => if is_basic_text_end c then 0 else sz CGJ | None => 0 end%nat.
Definition charge (r : list N) : nat :=
  (total weight r + (if opt_all is_basic_text_start (head_opt r) then 0 else sz CGJ) + nonend r)%nat.
Variable allow : N -> nat.
Hypothesis charge_rep : forall c, (charge (replace c) <= allow c)%nat.
Hypothesis small_allow : forall c, (sz LF <= allow c /\ sz SP <= allow c)%nat.
Hypothesis weight_same : weight LF = sz LF /\ weight SP = sz SP /\ weight CGJ = sz CGJ.

Definition owed (s : state) : nat := match s with Cr => sz LF | Ff => sz SP | _ => 0%nat end.
Lemma stock_eq : forall i, stock i = (total sz (iter i) + total weight (queue i) + owed (st i) + nonend (queue i))%nat.
Proof. reflexivity. Qed.
Lemma nonend_app : forall a b, (nonend (a ++ b) <= (match b with [] => nonend a | _ => nonend b end))%nat.
Proof.
  intros a b. destruct b as [|y b]; [now rewrite app_nil_r|]. destruct (exists_last (l := y :: b)) as (b' & z & E); [discriminate|]. rewrite E. unfold nonend.
  rewrite app_assoc, !last_opt_snoc. reflexivity.
Qed.
Lemma end_consts : is_basic_text_end LF = true /\ is_basic_text_end SP = true /\ is_basic_text_end CGJ = true /\ is_basic_text_start LF = true.
Proof. vm_compute. auto. Qed.
Lemma charge_LF : charge [LF] = sz LF.
Proof. unfold charge, nonend. cbn [total head_opt opt_all last_opt]. destruct end_consts as (-> & _ & _ & ->). destruct weight_same as (-> & _). lia. Qed.

Lemma ground_char_stock : forall i c, (stock (ground_char i c) <= stock (set_st i (Ground false)) + allow c)%nat.
Proof.
  intros i c. unfold ground_char. set (nl := _ || _). set (r := replace _).
  assert (CR : (charge r <= allow c)%nat).
  { unfold r. destruct nl; [|apply charge_rep]. replace (replace LF) with [LF] by (vm_compute; reflexivity). rewrite charge_LF. apply small_allow. }
  clearbody r. rewrite !stock_eq. cbn [queue iter st owed set_st]. rewrite !total_app. unfold charge in CR.
  pose proof (nonend_app (queue i) ((if expect_starter i && negb (opt_all is_basic_text_start (head_opt r)) then [CGJ] else []) ++ r)) as L.
  pose proof (nonend_app [CGJ] r) as L2. destruct weight_same as (_ & _ & WC). destruct end_consts as (_ & _ & EC & _).
  destruct (opt_all is_basic_text_start (head_opt r)) eqn:ES; rewrite ?andb_false_r, ?andb_true_r in *; cbn [negb] in *.
  - rewrite ?andb_false_r in *. cbn [app total] in *. destruct r; lia.
  - rewrite ?andb_true_r in *. destruct (expect_starter i); cbn [app total] in *; [|destruct r; lia]. destruct r; [cbn in ES; discriminate|]. lia.
Qed.
Lemma push_stock : forall i x s, sz x = weight x -> is_basic_text_end x = true -> owed s = 0%nat -> (stock (push_set i [x] s) <= stock (set_st i (Ground false)) + sz x)%nat.
Proof.
  intros i x s W E O. rewrite !stock_eq. unfold push_set. cbn [queue iter st owed set_st]. rewrite O, total_app. cbn [total]. pose proof (nonend_app (queue i) [x]) as L. cbn beta iota in L.
  assert (Z : nonend [x] = 0%nat) by (unfold nonend; cbn [last_opt]; now rewrite E). lia.
Qed.
Lemma step_ground_stock : forall i c, (stock (step_ground i c) <= stock (set_st i (Ground false)) + allow c)%nat.
Proof.
  intros i c. unfold step_ground. destruct (small_allow c) as [A1 A2]. destruct weight_same as (W1 & W2 & W3). destruct end_consts as (E1 & E2 & _).
  assert (ST : forall s, (owed s <= allow c)%nat -> (stock (set_st i s) <= stock (set_st i (Ground false)) + allow c)%nat).
  { intros s H. rewrite !stock_eq. cbn [queue iter st set_st owed]. lia. }
  destruct (c =? LF); [pose proof (push_stock i LF (Ground true) (eq_sym W1) E1 eq_refl); lia|].
  destruct (c =? CR); [now apply ST|]. destruct (c =? FF); [now apply ST|]. destruct (c =? ESC); [apply ST; cbn; lia|]. apply ground_char_stock.
Qed.
Lemma set_st_twice : forall i s t, set_st (set_st i s) t = set_st i t. Proof. reflexivity. Qed.
Lemma st_stock : forall i s, owed s = 0%nat -> (stock (set_st i s) <= stock i)%nat.
Proof. intros i s H. rewrite !stock_eq. cbn [queue iter st set_st]. lia. Qed.
Lemma step_stock : forall i c, (stock (step i c) <= stock i + allow c)%nat.
Proof.
  intros i c. destruct weight_same as (W1 & W2 & W3). destruct end_consts as (E1 & E2 & _).
  assert (SG : forall s, owed s = 0%nat -> (stock (step_ground (set_st i s) c) <= stock i + allow c)%nat).
  { intros s H. pose proof (step_ground_stock (set_st i s) c) as K. rewrite set_st_twice in K. pose proof (st_stock i (Ground false) eq_refl). lia. }
  assert (SS : forall s, owed s = 0%nat -> (stock (set_st i s) <= stock i + allow c)%nat) by (intros s H; pose proof (st_stock i s H); lia).
  unfold step. destruct (st i) eqn:ES.
  - pose proof (step_ground_stock i c). pose proof (st_stock i (Ground false) eq_refl). lia.
  - pose proof (push_stock i LF (Ground true) (eq_sym W1) E1 eq_refl) as P.
    assert (P2 : (stock (set_st i (Ground false)) + sz LF <= stock i)%nat) by (rewrite !stock_eq; cbn [queue iter st set_st owed]; rewrite ES; cbn [owed]; lia).
    destruct (c =? LF); [lia|]. pose proof (step_ground_stock (push_set i [LF] (Ground true)) c) as K.
    pose proof (st_stock (push_set i [LF] (Ground true)) (Ground false) eq_refl). lia.
  - destruct (c =? FF); [lia|]. destruct ((c =? LF) || (c =? CR)).
    + pose proof (step_ground_stock (push_set i [] (Ground false)) c) as K. pose proof (st_stock (push_set i [] (Ground false)) (Ground false) eq_refl) as K2.
      assert (P2 : (stock (push_set i [] (Ground false)) <= stock i)%nat) by (rewrite !stock_eq; unfold push_set; cbn [queue iter st owed]; rewrite app_nil_r; lia). lia.
    + pose proof (push_stock i SP (Ground false) (eq_sym W2) E2 eq_refl) as P.
      assert (P2 : (stock (set_st i (Ground false)) + sz SP <= stock i)%nat) by (rewrite !stock_eq; cbn [queue iter st set_st owed]; rewrite ES; cbn [owed]; lia).
      pose proof (step_ground_stock (push_set i [SP] (Ground false)) c) as K. pose proof (st_stock (push_set i [SP] (Ground false)) (Ground false) eq_refl). lia.
  - repeat match goal with |- context [if ?b then _ else _] => destruct b end; auto.
  - repeat match goal with |- context [if ?b then _ else _] => destruct b end; auto.
  - repeat match goal with |- context [if ?b then _ else _] => destruct b end; auto.
  - repeat match goal with |- context [if ?b then _ else _] => destruct b end; auto. lia.
  - repeat match goal with |- context [if ?b then _ else _] => destruct b end; auto.
Qed.
Lemma fold_stock : forall cs i, (stock (fold_left step cs i) <= stock i + total allow cs)%nat.
Proof. induction cs as [|c cs IH]; intro i; cbn [fold_left total]; [lia|]. etransitivity; [apply IH|]. pose proof (step_stock i c). lia. Qed.
Lemma raw_stock : forall i raw, (stock (process_raw i raw) <= stock i + total allow raw)%nat.
Proof.
  intros i raw. unfold process_raw. assert (A : stock (set_at_start i false) = stock i) by reflexivity. destruct (at_start i); [destruct raw as [|c raw]; [cbn [fold_left total]; lia|destruct (c =? BOM)]|].
  - pose proof (fold_stock raw (set_at_start i false)). cbn [total]. lia.
  - pose proof (fold_stock (c :: raw) (set_at_start i false)). lia.
  - pose proof (fold_stock raw (set_at_start i false)). lia.
Qed.
Lemma finish_stock : forall i s, (stock (finish i s) <= stock i + (if is_end s && negb (is_ground_nl (st i)) then sz LF else 0))%nat /\
  (is_end s = true -> is_ground_nl (st (finish i s)) = true).
Proof.
  intros i s. destruct weight_same as (W1 & W2 & W3). destruct end_consts as (E1 & E2 & E3 & _). unfold finish. destruct (is_active s) eqn:EA; [split; [lia|destruct s; discriminate]|].
  set (i1 := match st i with Ground _ => i | Cr => _ | _ => _ end).
  assert (S1 : (stock i1 <= stock i)%nat /\ owed (st i1) = 0%nat /\ (is_ground_nl (st i) = true -> is_ground_nl (st i1) = true)).
  { unfold i1. destruct (st i) eqn:ES; try (split; [lia|split; [now rewrite ES|rewrite ES; auto]]); try (split; [now apply st_stock|split; [reflexivity|discriminate]]).
    - split; [|split; [reflexivity|discriminate]]. pose proof (push_stock i LF (Ground true) (eq_sym W1) E1 eq_refl) as P.
      assert (P2 : (stock (set_st i (Ground false)) + sz LF <= stock i)%nat) by (rewrite !stock_eq; cbn [queue iter st set_st owed]; rewrite ES; cbn [owed]; lia). lia.
    - split; [|split; [reflexivity|discriminate]]. pose proof (push_stock i SP (Ground false) (eq_sym W2) E2 eq_refl) as P.
      assert (P2 : (stock (set_st i (Ground false)) + sz SP <= stock i)%nat) by (rewrite !stock_eq; cbn [queue iter st set_st owed]; rewrite ES; cbn [owed]; lia). lia. }
  destruct S1 as (S1 & O1 & N1). clearbody i1.
  set (i2 := match last_opt (queue i1) with Some l => _ | None => i1 end).
  assert (S2 : (stock i2 <= stock i1)%nat /\ st i2 = st i1).
  { unfold i2. destruct (last_opt (queue i1)) as [l|] eqn:EL; [|auto]. destruct (is_basic_text_end l) eqn:EE; [auto|]. split; [|reflexivity]. rewrite !stock_eq. cbn [queue iter st set_q].
    rewrite total_app. cbn [total]. unfold nonend. rewrite last_opt_snoc, E3, EL, EE. lia. }
  destruct S2 as (S2 & T2). clearbody i2. destruct (is_end s) eqn:EN; [|split; [cbn [andb]; lia|discriminate]]. cbn [andb]. rewrite T2.
  destruct (is_ground_nl (st i1)) eqn:EG; [split; [|intros _; now rewrite T2]; destruct (negb _); lia|]. split; [|reflexivity].
  assert (is_ground_nl (st i) = false) as -> by (destruct (is_ground_nl (st i)); [discriminate (N1 eq_refl)|reflexivity]). cbn [negb].
  pose proof (push_stock i2 LF (Ground true) (eq_sym W1) E1 eq_refl). pose proof (st_stock i2 (Ground false) eq_refl). lia.
Qed.
Definition due (script : list event) (i : input) : nat := match script with [] => if is_ground_nl (st i) then 0 else sz LF | _ => sz LF end%nat.
Lemma due_le : forall script i, (due script i <= sz LF)%nat.
Proof. intros [|e script] i; cbn; [destruct (is_ground_nl _)|]; lia. Qed.
Lemma next_st : forall i c j, queue_next i = Some (c, j) -> st j = st i.
Proof.
  intros i c j H. unfold queue_next in H. destruct (quick i); [destruct (iter i); [destruct (last_boundary _); [|discriminate]|]|].
  - destruct (_ && _); [destruct (queue i); [discriminate|]|destruct (pipeline _); [discriminate|]]; injection H as <- <-; reflexivity.
  - injection H as <- <-; reflexivity.
  - destruct (queue i); [discriminate|]; injection H as <- <-; reflexivity.
Qed.
Lemma drain_st : forall f room i cs e j, drain f room i = (cs, e, j) -> st j = st i.
Proof.
  induction f as [|f IH]; intros room i cs e j H; cbn [drain] in H; [injection H as <- <- <-; reflexivity|].
  destruct (queue_next i) as [[c i']|] eqn:E; [|injection H as <- <- <-; reflexivity]. apply next_st in E. destruct (Nat.ltb _ _).
  - injection H as <- <- <-. exact E.
  - destruct (drain f _ i') as [[cs' e'] j'] eqn:ED. injection H as <- <- <-. apply IH in ED. congruence.
Qed.
Lemma read_stock : forall i script b r cs i' script', read i script b = (r, cs, i', script') ->
  (total sz cs + stock i' + total allow (stream_text script') + due script' i' <= stock i + total allow (stream_text script) + due script i)%nat.
Proof.
  intros i script b r cs i' script' H. unfold read in H. destruct (Nat.ltb _ _); [injection H as <- <- <- <-; cbn; lia|].
  destruct (drain b b i) as [[cs1 e1] i1] eqn:D1. pose proof (drain_st _ _ _ _ _ _ D1) as T1. apply drain_stock in D1.
  assert (DU : due script i1 = due script i) by (unfold due; now rewrite T1).
  destruct e1; cbn [negb] in H; [|injection H as <- <- <- <-; lia].
  destruct (is_active (pending i1)); cbn [negb] in H.
  2:{ injection H as <- <- <- <-. change (stock (set_expect (set_pending i1 Active) true)) with (stock i1). change (due script (set_expect (set_pending i1 Active) true)) with (due script i1). lia. }
  destruct (inner_read script) as [[[raw s]|] sc'] eqn:EI.
  2:{ injection H as <- <- <- <-. destruct script as [|[cs0 [| |]|] t]; cbn in EI; try discriminate. injection EI as <-. cbn [stream_text due]. pose proof (due_le t i1). lia. }
  destruct (drain (b - str_len cs1) (b - str_len cs1) (finish (process_raw i1 raw) s)) as [[cs2 e2] i3] eqn:D2. pose proof (drain_st _ _ _ _ _ _ D2) as T2. apply drain_stock in D2.
  pose proof (raw_stock i1 raw) as R. pose proof (finish_stock (process_raw i1 raw) s) as [F1 F2].
  assert (G : (total sz (cs1 ++ cs2) + stock i3 + total allow (stream_text sc') + due sc' i3 <= stock i + total allow (stream_text script) + due script i)%nat).
  { rewrite total_app. rewrite <- DU. destruct (is_end s) eqn:ES; cbn [andb] in F1.
    - assert (Z : due sc' i3 = 0%nat /\ sc' = []).
      { assert (sc' = []) as -> by (destruct s; try discriminate; destruct script as [|[cs0 [| |]|] t]; cbn in EI; injection EI; congruence). split; [|reflexivity]. cbn. now rewrite T2, F2. }
      destruct Z as [-> ->]. cbn [stream_text total]. destruct script as [|[cs0 s0|] t].
      + cbn in EI. injection EI as <- <-. cbn [stream_text total due] in *. assert (SR : st (process_raw i1 []) = st i1) by (unfold process_raw; destruct (at_start i1); reflexivity).
        rewrite SR in F1. destruct (is_ground_nl (st i1)); cbn [negb] in F1; lia.
      + cbn [due]. assert (total allow raw <= total allow (stream_text (Chunk cs0 s0 :: t)))%nat.
        { cbn in EI. cbn [stream_text]. destruct s0; injection EI; intros; subst; rewrite ?total_app; lia. }
        destruct (negb _); lia.
      + discriminate.
    - assert (ST : stream_text script = raw ++ stream_text sc' /\ script <> []).
      { destruct script as [|[cs0 [| |]|] t]; cbn in EI; injection EI; intros; subst; try discriminate; split; (discriminate || reflexivity). }
      destruct ST as [-> NE]. rewrite total_app. pose proof (due_le sc' i3). assert (due script i1 = sz LF) as -> by (destruct script; [congruence|reflexivity]). lia. }
  destruct e2.
  - injection H as <- <- <- <-. destruct (is_active s); exact G.
  - injection H as <- <- <- <-. exact G.
Qed.
Theorem reads_stock : forall sizes i script rs j rest, reads i script sizes = (rs, j, rest) ->
  (total sz (delivered rs) + stock j + total allow (stream_text rest) + due rest j <= stock i + total allow (stream_text script) + due script i)%nat.
Proof.
  induction sizes as [|b sizes IH]; intros i script rs j rest H; cbn [reads] in H; [injection H as <- <- <-; cbn; lia|].
  destruct (read i script b) as [[[r cs] i'] sc'] eqn:E1. destruct (reads i' sc' sizes) as [[rs' i''] sc''] eqn:E2. injection H as <- <- <-.
  apply read_stock in E1. apply IH in E2. unfold delivered in *. cbn [flat_map snd]. rewrite total_app. lia.
Qed.
End Size.
