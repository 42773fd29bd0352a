(** Invariants of a reading session. *)
From Coq Require Import NArith Arith List Bool Lia ZifyBool ZifyNat ZifyN.
From Verif Require Import Base Ucd Norm Chars TextTables TextUtils Utf8 Input UcdFacts NormFacts CharFacts SpecText TextFacts PipelineFacts IsoFacts Utf8Facts ReadFacts.
Import ListNotations.
Local Open Scope N_scope.
Arguments N.add : simpl never.
Arguments N.leb : simpl never.
Arguments N.ltb : simpl never.
Arguments N.eqb : simpl never.
Local Opaque pipeline.

Notation all_good := (Forall (fun c => goodb c = true)).
Lemma good_LF : goodb LF = true. Proof. apply clean_good, clean_LF. Qed.
Lemma good_SP : goodb SP = true. Proof. apply clean_good, clean_SP. Qed.
Lemma good_CGJ : goodb CGJ = true. Proof. apply clean_good, clean_CGJ. Qed.
Lemma all_good1 : forall c, goodb c = true -> all_good [c]. Proof. auto. Qed.
Lemma LF_ne_ESC : LF <> ESC. Proof. discriminate. Qed.

(** * One character through the translator *)
(** [D]: text already made available; [Q]: text in the queue *)
Definition ends_LF (s : list N) : Prop := exists t, s = t ++ [LF].
Record tinv (D Q : list N) (x : tstate) : Prop := {
  t_good : all_good Q;
  t_start : D = [] -> hstart Q;
  t_empty : D = [] -> Q = [] -> fst x = true \/ snd x = Cr;
  t_nl : is_ground_nl (snd x) = true -> (Q = [] /\ (D = [] \/ ends_LF D)) \/ ends_LF Q
}.

Lemma hstart_app : forall a b, a <> [] -> hstart (a ++ b) <-> hstart a.
Proof. intros [|c a] b H; [congruence|]. reflexivity. Qed.
Lemma replace_nonnil : forall c, replace c <> [].
Proof.
  intro c. pose proof (replace_spec c) as R. destruct (in_ranges c tbl_replaced); [tauto|]. rewrite R. discriminate.
Qed.
Lemma ends_LF_snoc : forall s, ends_LF (s ++ [LF]). Proof. intro s. now exists s. Qed.

(** pushing a nonempty text that starts well or has something before it *)
Lemma tinv_push : forall D Q x o x', tinv D Q x -> all_good o -> o <> [] ->
  (D = [] -> Q = [] -> hstart o) ->
  (is_ground_nl (snd x') = true -> ends_LF o) -> tinv D (Q ++ o) x'.
Proof.
  intros D Q x o x' T HG HN HS HL. split.
  - apply Forall_app. split; [apply T|exact HG].
  - intro ED. destruct Q as [|q Q]; [exact (HS ED eq_refl)|]. apply hstart_app; [discriminate|]. now apply T.
  - intros _ E. apply app_eq_nil in E. tauto.
  - intro H. right. destruct (HL H) as [t ->]. exists (Q ++ t). now rewrite app_assoc.
Qed.
Lemma tinv_LF : forall D Q x e b, tinv D Q x -> tinv D (Q ++ [LF]) (e, Ground b).
Proof.
  intros D Q x e b T. apply (tinv_push _ _ _ _ _ T); [exact (all_good1 _ good_LF)|discriminate|intros; exact start_LF|intros _; now exists []].
Qed.
Lemma tinv_SP : forall D Q x e, tinv D Q x -> tinv D (Q ++ [SP]) (e, Ground false).
Proof.
  intros D Q x e T. apply (tinv_push _ _ _ _ _ T); [exact (all_good1 _ good_SP)|discriminate|intros; exact start_SP|discriminate].
Qed.
(** changing state without pushing *)
Lemma tinv_quiet : forall D Q x x', tinv D Q x -> (D = [] -> Q = [] -> fst x' = true \/ snd x' = Cr) -> is_ground_nl (snd x') = false -> tinv D Q x'.
Proof. intros D Q x x' T H1 H2. split; try apply T; [exact H1|]. rewrite H2. discriminate. Qed.

(** a character examined in the ground state *)
Definition gstep (nel lsps : bool) (x : tstate) (c : N) : list N * tstate :=
  let i := step_ground (stub nel lsps x) c in (queue i, (expect_starter i, st i)).

Lemma gstep_inv : forall nel lsps D Q x c o x', tinv D Q x -> (D = [] -> Q = [] -> fst x = true \/ c = LF \/ c = CR) ->
  gstep nel lsps x c = (o, x') -> tinv D (Q ++ o) x'.
Proof.
  intros nel lsps D Q [e s] c o x' T HE H. unfold gstep, step_ground, stub in H. cbn in HE.
  destruct (c =? LF) eqn:E1.
  { cbn in H. injection H as <- <-. exact (tinv_LF _ _ _ _ _ T). }
  destruct (c =? CR) eqn:E2.
  { cbn in H. injection H as <- <-. rewrite app_nil_r. apply (tinv_quiet _ _ _ _ T); auto. }
  destruct (c =? FF) eqn:E3.
  { cbn in H. injection H as <- <-. rewrite app_nil_r. apply (tinv_quiet _ _ _ _ T); auto.
    intros A B. destruct (HE A B) as [K|[K|K]]; [now left|lia|lia]. }
  destruct (c =? ESC) eqn:E4.
  { cbn in H. injection H as <- <-. rewrite app_nil_r. apply (tinv_quiet _ _ _ _ T); auto.
    intros A B. destruct (HE A B) as [K|[K|K]]; [now left|lia|lia]. }
  unfold ground_char in H. cbn [nel_compat lsps_compat expect_starter queue st iter quick pending at_start fst snd] in H.
  set (nl := nel && (c =? NEL) || lsps && ((c =? LS) || (c =? PS))) in *.
  assert (G : all_good (replace (if nl then LF else c))).
  { apply replace_good. destruct nl; [exact LF_ne_ESC|]. intro X. subst c. discriminate E4. }
  assert (NN := replace_nonnil (if nl then LF else c)).
  set (r := replace (if nl then LF else c)) in *. injection H as <- <-. cbn [app].
  apply (tinv_push _ _ _ _ _ T).
  - apply Forall_app. split; [|exact G]. destruct (e && _); [exact (all_good1 _ good_CGJ)|constructor].
  - intro X. apply app_eq_nil in X. tauto.
  - intros A B. destruct (HE A B) as [K|[K|K]]; [|lia|lia]. cbn in K. subst e. cbn [andb].
    destruct (opt_all is_basic_text_start (head_opt r)) eqn:ES; cbn [negb app]; [exact ES|exact start_CGJ].
  - intro H. cbn in H. subst r. rewrite H. exists (if e && negb (opt_all is_basic_text_start (head_opt (replace LF))) then [CGJ] else []).
    reflexivity.
Qed.

Lemma tstep_ground_as : forall nel lsps i c, queue i = [] -> nel_compat i = nel -> lsps_compat i = lsps -> 
  let j := step_ground i c in (queue j, (expect_starter j, st j)) = gstep nel lsps (expect_starter i, st i) c.
Proof.
  intros nel lsps [q it n p e a nl ls s] c HQ <- <-. cbn in HQ. subst q. unfold gstep, stub, step_ground, ground_char. cbn.
  repeat (destruct (_ =? _); [reflexivity|]). reflexivity.
Qed.

Lemma tstep_inv : forall nel lsps D Q x c o x', tinv D Q x -> tstep nel lsps x c = (o, x') -> tinv D (Q ++ o) x'.
Proof.
  intros nel lsps D Q [e s] c o x' T H. pose proof (t_empty _ _ _ T) as TE. cbn [fst snd] in TE.
  unfold tstep, step, stub in H. cbn [st fst snd] in H.
  assert (Quiet : forall y, is_ground_nl y = false -> s <> Cr -> tinv D (Q ++ []) (e, y)).
  { intros y H1 H2. rewrite app_nil_r. apply (tinv_quiet _ _ _ _ T); [|exact H1]. intros A B. destruct (TE A B); [now left|congruence]. }
  assert (G : forall i y, queue i = [] -> nel_compat i = nel -> lsps_compat i = lsps -> expect_starter i = e -> st i = Ground y -> y = false -> s <> Cr ->
     (queue (step_ground i c), (expect_starter (step_ground i c), st (step_ground i c))) = (o, x') -> tinv D (Q ++ o) x').
  { intros i y H1 H2 H3 H4 H5 H6 H7 H8. rewrite (tstep_ground_as nel lsps i c H1 H2 H3) in H8. rewrite H4, H5 in H8. subst y.
    eapply (gstep_inv _ _ D Q); [|intros A B|exact H8].
    - rewrite <- (app_nil_r Q). apply Quiet; auto.
    - cbn. destruct (TE A B); [now left|congruence]. }
  destruct s as [b| | | | | | |].
  - rewrite (tstep_ground_as nel lsps) in H by reflexivity. eapply gstep_inv; [exact T| |exact H].
    intros A B. destruct (TE A B); [now left|discriminate].
  - (* Cr *)
    set (i' := push_set (mkinput [] [] 0 Active e false nel lsps Cr) [LF] (Ground true)) in *.
    assert (T1 : tinv D (Q ++ [LF]) (false, Ground true)).
    { exact (tinv_LF _ _ _ _ _ T). }
    destruct (c =? LF).
    + cbn in H. injection H as <- <-. exact T1.
    + assert (H' : exists o', o = [LF] ++ o' /\ gstep nel lsps (false, Ground true) c = (o', x')).
      { revert H. subst i'. unfold gstep, stub, push_set, step_ground, ground_char. cbn.
        repeat match goal with |- context [if ?b then _ else _] => match type of b with bool => lazymatch b with context [if _ then _ else _] => fail | _ => destruct b end end end;
        cbn; intro H; injection H as <- <-; eexists; split; reflexivity. }
      destruct H' as (o' & -> & H'). rewrite app_assoc. eapply gstep_inv; [exact T1| |exact H'].
      intros _ B. apply app_eq_nil in B. destruct B. discriminate.
  - (* Ff *)
    destruct (c =? FF).
    { cbn in H. injection H as <- <-. apply Quiet; [reflexivity|discriminate]. }
    destruct ((c =? LF) || (c =? CR)) eqn:EC.
    + unfold push_set in H. cbn [queue iter quick pending at_start nel_compat lsps_compat app] in H.
      rewrite (tstep_ground_as nel lsps) in H by reflexivity. cbn [expect_starter st] in H.
      unfold gstep, step_ground, stub in H. destruct (c =? LF) eqn:E1.
      { cbn in H. injection H as <- <-. exact (tinv_LF _ _ _ _ _ T). }
      cbn [orb] in EC. rewrite EC in H. cbn in H. injection H as <- <-. rewrite app_nil_r. apply (tinv_quiet _ _ _ _ T); auto.
    + assert (T1 : tinv D (Q ++ [SP]) (false, Ground false)).
      { exact (tinv_SP _ _ _ _ T). }
      assert (H' : exists o', o = [SP] ++ o' /\ gstep nel lsps (false, Ground false) c = (o', x')).
      { revert H. unfold gstep, stub, push_set, step_ground, ground_char. cbn.
        repeat match goal with |- context [if ?b then _ else _] => match type of b with bool => lazymatch b with context [if _ then _ else _] => fail | _ => destruct b end end end;
        cbn; intro H; injection H as <- <-; eexists; split; reflexivity. }
      destruct H' as (o' & -> & H'). rewrite app_assoc. eapply gstep_inv; [exact T1| |exact H'].
      intros _ B. apply app_eq_nil in B. destruct B. discriminate.
  - repeat match type of H with context [if ?b then _ else _] => destruct b end;
    first [cbn in H; injection H as <- <-; apply Quiet; [reflexivity|discriminate]
          |eapply G in H; [exact H|..]; cbn; reflexivity || discriminate].
  - repeat match type of H with context [if ?b then _ else _] => destruct b end;
    first [cbn in H; injection H as <- <-; apply Quiet; [reflexivity|discriminate]
          |eapply G in H; [exact H|..]; cbn; reflexivity || discriminate].
  - repeat match type of H with context [if ?b then _ else _] => destruct b end;
    first [cbn in H; injection H as <- <-; apply Quiet; [reflexivity|discriminate]
          |eapply G in H; [exact H|..]; cbn; reflexivity || discriminate].
  - repeat match type of H with context [if ?b then _ else _] => destruct b end;
    first [cbn in H; injection H as <- <-; apply Quiet; [reflexivity|discriminate]
          |eapply G in H; [exact H|..]; cbn; reflexivity || discriminate].
  - repeat match type of H with context [if ?b then _ else _] => destruct b end;
    first [cbn in H; injection H as <- <-; apply Quiet; [reflexivity|discriminate]
          |eapply G in H; [exact H|..]; cbn; reflexivity || discriminate].
Qed.

Lemma trans_inv : forall nel lsps cs D Q x o x', tinv D Q x -> trans nel lsps x cs = (o, x') -> tinv D (Q ++ o) x'.
Proof.
  induction cs as [|c cs IH]; intros D Q x o x' T H; cbn [trans] in H.
  - injection H as <- <-. now rewrite app_nil_r.
  - destruct (tstep nel lsps x c) as [o1 x1] eqn:E1. destruct (trans nel lsps x1 cs) as [o2 x2] eqn:E2. injection H as <- <-.
    rewrite app_assoc. eapply IH; [|exact E2]. eapply tstep_inv; eauto.
Qed.

(** * Status handling *)
(** an empty queue means that the text before it ends with LF, CGJ, or is empty *)
Lemma fin_inv : forall s D Q x o x', tinv D Q x -> fin s (last_opt Q) x = (o, x') -> tinv D (Q ++ o) x'.
Proof.
  intros s D Q [e t] o x' T H. unfold fin in H. cbn [fst snd] in H.
  destruct (is_active s); [injection H as <- <-; now rewrite app_nil_r|].
  match type of H with (let '(_, _) := ?m in _) = _ => set (r := m) in H end.
  assert (T1 : tinv D (Q ++ fst r) (snd r) /\ (forall b, snd (snd r) = Ground b \/ True) /\ snd (snd r) <> Cr).
  { subst r. destruct t; cbn; rewrite ?app_nil_r; (split; [|split; [auto|discriminate]]); try exact T.
    - exact (tinv_LF _ _ _ _ _ T).
    - exact (tinv_SP _ _ _ _ T).
    - apply (tinv_quiet _ _ _ _ T); [|reflexivity]. intros A B. destruct (t_empty _ _ _ T A B); [now left|discriminate].
    - apply (tinv_quiet _ _ _ _ T); [|reflexivity]. intros A B. destruct (t_empty _ _ _ T A B); [now left|discriminate].
    - apply (tinv_quiet _ _ _ _ T); [|reflexivity]. intros A B. destruct (t_empty _ _ _ T A B); [now left|discriminate].
    - apply (tinv_quiet _ _ _ _ T); [|reflexivity]. intros A B. destruct (t_empty _ _ _ T A B); [now left|discriminate].
    - apply (tinv_quiet _ _ _ _ T); [|reflexivity]. intros A B. destruct (t_empty _ _ _ T A B); [now left|discriminate]. }
  destruct T1 as (T1 & _ & NC). destruct r as [o1 x1]. cbn [fst snd] in T1, NC.
  assert (LL : (match last_opt o1 with Some y => Some y | None => last_opt Q end) = last_opt (Q ++ o1)) by now rewrite last_opt_app.
  cbv beta iota zeta in H. rewrite LL in H. clear LL.
  set (o2 := match last_opt (Q ++ o1) with Some y => if is_basic_text_end y then [] else [CGJ] | None => [] end) in H.
  assert (T2 : tinv D ((Q ++ o1) ++ o2) x1).
  { subst o2. destruct (last_opt (Q ++ o1)) as [y|] eqn:EL; [|now rewrite app_nil_r].
    destruct (is_basic_text_end y) eqn:EE; [now rewrite app_nil_r|].
    apply (tinv_push _ _ _ _ _ T1); [exact (all_good1 _ good_CGJ)|discriminate|intros; exact start_CGJ|].
    intro G. exfalso. apply last_opt_some in EL. destruct EL as [u EU].
    destruct (t_nl _ _ _ T1 G) as [[E _]|[v E]].
    - rewrite E in EU. destruct u; discriminate.
    - rewrite EU in E. apply app_inj_tail in E. destruct E as [_ ->]. discriminate EE. }
  destruct (is_end s).
  - destruct (is_ground_nl (snd x1)).
    + injection H as <- <-. now rewrite app_assoc.
    + injection H as <- <-. rewrite !app_assoc. exact (tinv_LF _ _ _ _ _ T2).
  - injection H as <- <-. now rewrite app_assoc.
Qed.

Lemma fin_ground : forall s l x o x', fin s l x = (o, x') -> is_active s = false -> exists b, snd x' = Ground b.
Proof.
  intros s l [e t] o x' H HA. unfold fin in H. rewrite HA in H. cbn [fst snd] in H.
  destruct t; cbn in H; destruct (is_end s); repeat match type of H with context [if ?b then _ else _] => destruct b end;
  injection H as <- <-; cbn; eauto.
Qed.
Lemma fin_end : forall l x o x', fin End l x = (o, x') -> is_ground_nl (snd x') = true.
Proof.
  intros l [e t] o x' H. unfold fin in H. cbn [is_active is_end fst snd] in H.
  destruct t as [b| | | | | | |]; cbn in H; try (injection H as <- <-; reflexivity).
  destruct b; injection H as <- <-; reflexivity.
Qed.

(** * Blocks *)
Record ainv (D : list N) (a : abs) : Prop := {
  i_clean : all_clean D;
  i_nfc : nfc_ss D;
  i_start : hstart D;
  i_end : D = [] \/ exists t b, D = t ++ [b] /\ boundary b;
  i_nb : no_boundary (a_res a);
  i_t : tinv D (a_res a) (a_ts a)
}.

Lemma ainv_new : ainv [] (mkabs [] (true, Ground true) true).
Proof.
  split; cbn; auto.
  - exact nfc_ss_nil.
  - reflexivity.
  - constructor.
  - split; cbn; auto. intro. reflexivity.
Qed.

Lemma ainv_absorb : forall nel lsps D a raw s new a', ainv D a -> absorb nel lsps a raw s = (new, a') -> ainv (D ++ new) a'.
Proof.
  intros nel lsps D a raw s new a' I H. unfold absorb, pushed in H.
  destruct (trans nel lsps (a_ts a) (body (a_start a) raw)) as [o x] eqn:ET.
  destruct (fin s (last_opt (a_res a ++ o)) x) as [o2 x2] eqn:EF. injection H as <- <-.
  pose proof (trans_inv _ _ _ _ _ _ _ _ (i_t _ _ I) ET) as T1. pose proof (fin_inv _ _ _ _ _ _ T1 EF) as T2.
  rewrite <- app_assoc in T2. set (Q := a_res a ++ o ++ o2) in *. clearbody Q. clear T1 ET.
  assert (GC : all_good (complete Q) /\ all_good (incomplete Q)).
  { pose proof (t_good _ _ _ T2) as G. rewrite (blocks_split Q) in G. apply Forall_app in G. exact G. }
  destruct GC as [GC GI].
  assert (HSD : D = [] -> hstart (complete Q)).
  { intro ED. pose proof (t_start _ _ _ T2 ED) as HS. destruct (complete_cases Q) as [[-> _]|(u & b & E & _)]; [reflexivity|].
    rewrite (blocks_split Q), E in HS. apply hstart_app in HS; [|now destruct u]. now rewrite E. }
  assert (PE : pipeline (complete Q) = [] /\ complete Q = [] /\ no_boundary Q \/ exists t b, pipeline (complete Q) = t ++ [b] /\ boundary b /\ exists u, complete Q = u ++ [b]).
  { destruct (complete_cases Q) as [[E NB]|(u & b & E & HB)].
    - left. rewrite E. split; [apply pipeline_nil|split; [reflexivity|exact NB]].
    - right. rewrite E. destruct (pipeline_end u b HB) as [t ->]. exists t, b. eauto. }
  split.
  - apply Forall_app. split; [apply I|now apply pipeline_clean].
  - destruct (i_end _ _ I) as [->|(t & b & -> & HB)].
    + cbn. apply pipeline_nfc_ss.
    + apply nfc_ss_join; [now apply boundary_boring|apply I|apply pipeline_nfc_ss].
  - destruct D as [|d D]; [cbn; apply pipeline_start; auto|]. apply hstart_app; [discriminate|apply I].
  - destruct PE as [(-> & _)|(t & b & -> & HB & _)].
    + rewrite app_nil_r. apply I.
    + right. exists (D ++ t), b. split; [now rewrite app_assoc|exact HB].
  - apply incomplete_nb.
  - cbn [a_res a_ts]. split.
    + exact GI.
    + intro E. apply app_eq_nil in E. destruct E as [ED EP].
      destruct PE as [(_ & EC & NB)|(t & b & E & _)]; [|rewrite E in EP; destruct t; discriminate].
      destruct (complete_nb _ NB) as [_ ->]. now apply T2.
    + intros E ER. apply app_eq_nil in E. destruct E as [ED EP]. cbn [fst snd].
      destruct PE as [(_ & EC & NB)|(t & b & E & _)]; [|rewrite E in EP; destruct t; discriminate].
      destruct (complete_nb _ NB) as [_ E]. rewrite E in ER. destruct (t_empty _ _ _ T2 ED ER) as [K|K].
      * left. destruct (is_active s); auto.
      * destruct (is_active s) eqn:EA; [now right|now left].
    + cbn [snd]. intro G. left. destruct (t_nl _ _ _ T2 G) as [[EQ ED]|[u EQ]].
      * subst Q. split; [reflexivity|]. change (pipeline (complete [])) with (pipeline []). rewrite pipeline_nil, app_nil_r. exact ED.
      * subst Q. destruct (complete_snoc u LF (or_introl eq_refl)) as [-> ->]. split; [reflexivity|]. right.
        destruct (pipeline_end u LF (or_introl eq_refl)) as [t ->]. exists (D ++ t). now rewrite app_assoc.
Qed.

(** after an end status nothing waits *)
Lemma absorb_end : forall nel lsps D a raw new a', ainv D a -> absorb nel lsps a raw End = (new, a') ->
  a_res a' = [] /\ (exists b, snd (a_ts a') = Ground b /\ b = true) /\ (D ++ new = [] \/ ends_LF (D ++ new)).
Proof.
  intros nel lsps D a raw new a' I H. pose proof (ainv_absorb _ _ _ _ _ _ _ _ I H) as I'.
  unfold absorb, pushed in H. destruct (trans nel lsps (a_ts a) (body (a_start a) raw)) as [o x] eqn:ET.
  destruct (fin End (last_opt (a_res a ++ o)) x) as [o2 x2] eqn:EF. injection H as <- <-.
  pose proof (fin_end _ _ _ _ EF) as G. pose proof (t_nl _ _ _ (i_t _ _ I')) as TN. cbn [a_ts a_res snd] in TN. specialize (TN G).
  assert (NB := i_nb _ _ I'). cbn [a_res] in *.
  destruct TN as [[E1 E2]|[u E]].
  - split; [exact E1|]. split; [|exact E2]. cbn. destruct (snd x2); try discriminate. cbn in G. subst. eauto.
  - rewrite E in NB. apply Forall_app in NB. destruct NB as [_ NB]. inversion NB. discriminate.
Qed.

(** the final state absorbs further end-of-stream reads silently *)
Lemma absorb_final : forall nel lsps a, a_res a = [] -> snd (a_ts a) = Ground true ->
  absorb nel lsps a [] End = ([], mkabs [] (true, Ground true) false).
Proof.
  intros nel lsps [r [e t] b] H1 H2. cbn in H1, H2. subst. unfold absorb, pushed. cbn [a_res a_ts a_start].
  assert (body b [] = []) as -> by (destruct b; reflexivity). cbn [trans app last_opt fin is_active snd fst is_end is_ground_nl].
  change (complete []) with (@nil N). now rewrite pipeline_nil.
Qed.
