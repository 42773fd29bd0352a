(** A writer over a writer (C77). *)
From Coq Require Import NArith Arith List Bool Lia ZifyBool ZifyNat ZifyN.
From Verif Require Import Base Ucd UcdTables Norm Chars TextTables TextUtils UcdFacts NormFacts CharFacts SpecText TextFacts PipelineFacts IsoFacts ConcatFacts
  Strings StringProps SpecString JoinProps Utf8 Utf8Facts Output SpecWrite WriteFacts WriteProps FuzzProps EdgeFacts Stack SpecLayer.
Import ListNotations.
Local Open Scope N_scope.
Arguments N.add : simpl never.
Arguments N.leb : simpl never.
Arguments N.ltb : simpl never.
Arguments N.eqb : simpl never.
Local Opaque pipeline.

(** What flushing and closing ask of the text written. *)
Definition tail_of (s : list N) : bool * bool :=
  (opt_all is_basic_text_end (last_opt s), match last_opt s with None => true | Some c => c =? 0xA end).
(** The outer writer agrees with the inner one. *)
Definition agrees (d e : doc) : Prop := tail_of (text d) = tail_of (text e) /\ fresh d = fresh e /\ failed d = failed e.
Definition answers (d : doc) (o : list wout) : doc := mkdoc (text d) (sent d) (fresh d) (failed d) o.

Lemma answered_refines : forall d w o, refines false d w -> refines false (answers d o) (answered w o).
Proof. intros d [b c e a s q [em sc ab]] o (H1 & H2 & H3 & H4 & H5 & H6 & H7). unfold refines, answered, answers in *. cbn in *. auto 10. Qed.
Lemma allowed_again : forall s, forallb allowedb s = true -> forallb allowedb (pipeline s) = true.
Proof. intros s H. apply forallb_forall. intros c HC. pose proof (allowed_pipeline s H) as K. rewrite Forall_forall in K. specialize (K c HC). unfold allowed in K. unfold allowedb. now rewrite K. Qed.
Lemma tail_app : forall a b, tail_of (a ++ b) = match b with [] => tail_of a | _ => tail_of b end.
Proof.
  intros a b. destruct b as [|x b] using rev_ind; [now rewrite app_nil_r|]. unfold tail_of. rewrite app_assoc, !last_opt_snoc. destruct (b ++ [x]) eqn:E; [now destruct b|reflexivity].
Qed.
Lemma tail_congr : forall a b t u, tail_of a = tail_of b -> (t = [] <-> u = []) -> tail_of t = tail_of u -> tail_of (a ++ t) = tail_of (b ++ u).
Proof. intros a b t u H E K. rewrite !tail_app. destruct t, u; auto; exfalso; intuition discriminate. Qed.
Lemma tail_line : forall s, snd (tail_of s) = true <-> line_terminated s.
Proof.
  intro s. unfold tail_of, line_terminated. cbn [snd]. destruct s as [|c s _] using rev_ind; [intuition|]. rewrite last_opt_snoc. split.
  - intro H. right. exists s. do 2 f_equal. lia.
  - intros [H|[t H]]; [now destruct s|]. apply app_inj_tail in H as [_ ->]. reflexivity.
Qed.
Lemma tail_pipeline : forall s, tail_of (pipeline s) = tail_of s.
Proof.
  intro s. pose proof (pipeline_last_iff s) as E. pose proof (pipeline_line s) as L. rewrite <- !tail_line in L.
  rewrite (surjective_pairing (tail_of (pipeline s))), (surjective_pairing (tail_of s)). f_equal; [exact E|].
  destruct (snd (tail_of (pipeline s))), (snd (tail_of s)); intuition.
Qed.
Arguments tail_of : simpl never.
Lemma substr_again : forall s, is_basic_text_substr s = true -> preceded s -> forallb allowedb s = true /\ pipeline s = s.
Proof.
  intros s H P. apply substr_ok_iff in H. destruct H as [H1 H2]. split; [now apply all_allowed|]. apply pipeline_fix; [exact H1|exact H2|]. now apply prec_ok_spec.
Qed.
Lemma pipeline_again : forall s, forallb allowedb s = true -> pipeline (pipeline s) = pipeline s.
Proof.
  intros s H. apply pipeline_fix; [now apply pipeline_all_clean, all_allowed|apply pipeline_nfc_ss|]. apply prec_ok_spec, pipeline_preceded.
Qed.
Lemma fail_failed : forall e, failed e = true -> fail e = e.
Proof. intros [t s f b o] H. cbn in H. now subst. Qed.

(** One operation of the outer writer, at the level of texts. *)
Definition spec_request (o : wop) (d d' : doc) : wop :=
  match o with
  | OpFlush => OpFlush
  | OpClose => OpClose
  | OpAbandon => OpAbandon
  | _ => OpWriteStr (skipn (length (sent d)) (sent d'))
  end.
(** A TextSubstr reaches the inner writer as a string. *)
Definition transparent (cr : bool) (d e : doc) (o : wop) : Prop :=
  let r := spec_op false (answers d []) o in
  let x := spec_op cr e (as_string o) in
  let d'' := snd (spec_op false (answers d [WErr 0]) o) in
  if fst r then
    spec_op cr e (spec_request o d (snd r)) = x /\
    (if fst x then agrees (snd r) (snd x) else agrees d'' (snd x) /\ (failed d'' = true -> failed (snd x) = true))
  else fst x = false /\ agrees (snd r) (snd x) /\ snd x = (if failed (snd r) then fail e else e).

Lemma skipn_sent : forall (a b : list N), skipn (length a) (a ++ b) = b.
Proof. intros a b. rewrite skipn_app, skipn_all, Nat.sub_diag. reflexivity. Qed.
(** [t] is sent by the outer writer, and converted again by the inner one. *)
Lemma send_transparent : forall cr d e t, agrees d e -> failed e = false -> t <> [] \/ pipeline t = t -> forallb allowedb t = true ->
  let r := spec_send false (answers d []) t in
  let x := spec_write cr e t in
  let d'' := snd (spec_send false (answers d [WErr 0]) t) in
  if fst r then
    spec_write cr e (skipn (length (sent d)) (sent (snd r))) = x /\
    (if fst x then agrees (snd r) (snd x) else agrees d'' (snd x) /\ (failed d'' = true -> failed (snd x) = true))
  else fst x = false /\ agrees (snd r) (snd x) /\ snd x = (if failed (snd r) then fail e else e).
Proof.
  intros cr d e t (A1 & A2 & A3) F P AL. cbv zeta. unfold spec_write. rewrite F, AL. cbn [negb].
  assert (TC : tail_of (text d ++ t) = tail_of (text e ++ pipeline t)).
  { apply tail_congr; [exact A1| |symmetry; apply tail_pipeline]. split; [intros ->; apply pipeline_nil|]. intro K. destruct t as [|c t]; [reflexivity|]. exfalso. now apply (pipeline_nonnil (c :: t) ltac:(discriminate)). }
  unfold spec_send, answers, agrees. cbn [fresh text sent outcomes failed]. rewrite A2, (pipeline_first t).
  destruct (fresh e && negb (opt_all is_basic_text_start (head_opt t))) eqn:E.
  - cbn. auto.
  - cbn [fst snd sent as_sent]. rewrite skipn_sent, AL. cbn [negb]. rewrite pipeline_first, E. split; [reflexivity|].
    destruct (outcomes e) as [|[|n] o]; cbn; auto.
Qed.
Theorem op_transparent : forall cr d e o, agrees d e -> plain_op o -> transparent cr d e o.
Proof.
  intros cr d e o A P. unfold transparent. cbv zeta. pose proof A as (A1 & A2 & A3).
  assert (W : forall s, let r := spec_write false (answers d []) s in
    let x := spec_write cr e s in
    let d'' := snd (spec_write false (answers d [WErr 0]) s) in
    if fst r then spec_write cr e (skipn (length (sent d)) (sent (snd r))) = x /\
      (if fst x then agrees (snd r) (snd x) else agrees d'' (snd x) /\ (failed d'' = true -> failed (snd x) = true))
    else fst x = false /\ agrees (snd r) (snd x) /\ snd x = (if failed (snd r) then fail e else e)).
  { intro s. cbv zeta.
    assert (U : forall o, spec_write false (answers d o) s = if failed e then (false, answers d o) else if negb (forallb allowedb s) then (false, fail (answers d o)) else spec_send false (answers d o) (pipeline s))
      by (intro o0; unfold spec_write; cbn [answers failed]; now rewrite A3).
    rewrite !U. clear U. destruct (failed e) eqn:F.
    - unfold spec_write; rewrite F; unfold agrees; cbn; rewrite ?A3, ?F, ?(fail_failed e F); auto 10.
    - destruct (forallb allowedb s) eqn:AL; cbn [negb].
      + pose proof (send_transparent cr d e (pipeline s) A F (or_intror (pipeline_again s AL)) (allowed_again s AL)) as K. cbv zeta in K.
        assert (E : spec_write cr e s = spec_write cr e (pipeline s)) by (unfold spec_write; now rewrite F, AL, (allowed_again s AL), (pipeline_again s AL)). rewrite E. exact K.
      + unfold spec_write. rewrite F, AL. cbn. unfold agrees. cbn. auto. }
  destruct o as [s|s|bs| | |]; cbn [spec_op spec_request as_string].
  - apply W.
  - unfold spec_write_text. cbn [answers failed]. rewrite A3. destruct (failed e) eqn:F.
    + unfold spec_write; rewrite F; unfold agrees; cbn; rewrite ?A3, ?F, ?(fail_failed e F); auto 10.
    + apply send_transparent; auto; [left; apply P|]. apply all_allowed, substr_ok_iff, (proj2 P).
  - destruct (decode bs) as [cs rest]. destruct cs as [|c cs].
    + destruct rest as [|b rest]; [apply W|]. cbn. unfold agrees. cbn. auto.
    + apply W.
  - unfold spec_flush. cbn [answers failed text]. assert (T : opt_all is_basic_text_end (last_opt (text d)) = opt_all is_basic_text_end (last_opt (text e))) by (unfold tail_of in A1; congruence). rewrite A3, T. destruct (failed e) eqn:F.
    + unfold agrees; cbn; rewrite ?A3, ?F, ?(fail_failed e F); auto 10.
    + destruct (opt_all _ (last_opt (text e))).
      * unfold spec_call, agrees. cbn [answers outcomes text sent failed fst snd fresh]. rewrite A3. split; [reflexivity|].
        destruct (outcomes e) as [|[|n] o]; cbn; rewrite ?F; auto; repeat split; auto; discriminate.
      * cbn. unfold agrees. cbn. auto.
  - assert (CL : forall x, spec_close x = if failed x then (false, x) else if snd (tail_of (text x)) then spec_call x else (false, fail x)).
    { intro x. unfold spec_close, tail_of. cbn [snd]. destruct (failed x); [reflexivity|]. now destruct (last_opt (text x)) as [c|]. }
    rewrite !CL. cbn [answers failed text]. rewrite A3, A1. destruct (failed e) eqn:F.
    + unfold agrees; cbn; rewrite ?A3, ?F, ?(fail_failed e F); auto 10.
    + destruct (snd (tail_of (text e))).
      * unfold spec_call, agrees. cbn [answers outcomes text sent failed fst snd fresh]. rewrite A3. split; [reflexivity|].
        destruct (outcomes e) as [|[|n] o]; cbn; rewrite ?F; auto; repeat split; auto; discriminate.
      * cbn. unfold agrees. cbn. auto.
  - cbn. unfold agrees. cbn. auto.
Qed.

Lemma abandon_refines : forall cr d w, refines cr d w -> refines cr (fail d) (abandon w).
Proof. intros cr d w H. exact (proj2 (op_refines cr d w OpAbandon H I)). Qed.
Lemma refines_facts : forall cr d w, refines cr d w -> emitted (inner w) = sent d /\ abandoned (inner w) = failed d.
Proof. intros cr d w (_ & _ & _ & H1 & H2 & _). auto. Qed.
Lemma plain_as_string : forall o, plain_op o -> plain_op (as_string o).
Proof. intros [s|s|bs| | |] H; exact I. Qed.
Theorem stack_transparent : forall cr ops d e w i k, refines false d w -> refines cr e i -> refines cr e k -> agrees d e ->
  Forall plain_op ops ->
  let '(rs, (_, i')) := stack_ops w i ops in let '(rs', k') := do_ops k (map as_string ops) in
  map ok rs = map ok rs' /\ emitted (inner i') = emitted (inner k') /\ abandoned (inner i') = abandoned (inner k').
Proof.
  intros cr ops. induction ops as [|o ops IH]; intros d e w i k RW RI RK AG P.
  { cbn. destruct (refines_facts _ _ _ RI) as [-> ->]. destruct (refines_facts _ _ _ RK) as [-> ->]. auto. }
  inversion P as [|? ? P1 P2]; subst. pose proof (op_transparent cr d e o AG P1) as T.
  destruct (op_refines cr e k (as_string o) RK (plain_as_string o P1)) as [KO KR].
  destruct (op_refines false (answers d []) (answered w []) o (answered_refines d w [] RW) P1) as [WO WR].
  destruct (op_refines false (answers d [WErr 0]) (answered w [WErr 0]) o (answered_refines d w [WErr 0] RW) P1) as [_ WR'].
  cbn [stack_ops map do_ops]. unfold stack_op. unfold transparent in T. cbv zeta in T.
  destruct (do_op (answered w []) o) as [r1 w'] eqn:EW. destruct (do_op k (as_string o)) as [rk k'] eqn:EK. cbn [fst snd] in *.
  rewrite <- WO, <- KO in T. destruct r1 as [er|]; cbn [ok] in T.
  - destruct T as (T1 & T2 & T3). assert (RI' : refines cr (snd (spec_op cr e (as_string o))) (pass_abandon w' i)).
    { rewrite T3. unfold pass_abandon. rewrite (proj2 (refines_facts _ _ _ WR)). destruct (failed _); [now apply abandon_refines|exact RI]. }
    specialize (IH _ _ _ _ _ WR RI' KR T2 P2). destruct (stack_ops w' (pass_abandon w' i) ops) as [rs [w2 i2]]. destruct (do_ops k' (map as_string ops)) as [rs' k2].
    cbn [map ok]. rewrite T1. destruct IH as (I1 & I2 & I3). now rewrite I1.
  - destruct T as (T1 & T2).
    assert (EQ : spec_request o d (snd (spec_op false (answers d []) o)) = request o w w').
    { destruct (refines_facts _ _ _ WR) as [E1 _]. destruct (refines_facts _ _ _ RW) as [E2 _]. destruct o; cbn [spec_request request]; rewrite ?E1, ?E2; reflexivity. }
    rewrite EQ in T1. assert (PR : plain_op (request o w w')) by (destruct o; exact I).
    destruct (op_refines cr e i (request o w w') RI PR) as [IO IR]. rewrite T1 in IO, IR.
    destruct (do_op i (request o w w')) as [ri i'] eqn:EI. cbn [fst snd] in IO, IR. rewrite <- IO in KO. destruct ri as [er|]; cbn [ok] in KO.
    + rewrite KO in T2. destruct T2 as [T2 T3]. set (w'' := snd (do_op (answered w [WErr 0]) o)) in *.
      assert (RI' : refines cr (snd (spec_op cr e (as_string o))) (pass_abandon w'' i')).
      { unfold pass_abandon. rewrite (proj2 (refines_facts _ _ _ WR')). destruct (failed _) eqn:F; [|exact IR]. rewrite <- (fail_failed (snd (spec_op cr e (as_string o)))) by auto. now apply abandon_refines. }
      specialize (IH _ _ _ _ _ WR' RI' KR T2 P2). cbv zeta. destruct (stack_ops w'' (pass_abandon w'' i') ops) as [rs [w2 i2]]. destruct (do_ops k' (map as_string ops)) as [rs' k2].
      cbn [map ok]. rewrite KO. destruct IH as (I1 & I2 & I3). now rewrite I1.
    + rewrite KO in T2. specialize (IH _ _ _ _ _ WR IR KR T2 P2). destruct (stack_ops w' i' ops) as [rs [w2 i2]]. destruct (do_ops k' (map as_string ops)) as [rs' k2].
      cbn [map ok]. rewrite KO. destruct IH as (I1 & I2 & I3). now rewrite I1.
Qed.
Theorem stacked_writer_any : forall cr p o ops rs w i rs' k,
  stack_ops (new_writer false false (mksink [] [] false)) (new_writer cr false (mksink p o false)) ops = (rs, (w, i)) ->
  do_ops (new_writer cr false (mksink p o false)) (map as_string ops) = (rs', k) -> Forall plain_op ops ->
  map ok rs = map ok rs' /\ emitted (inner i) = emitted (inner k) /\ abandoned (inner i) = abandoned (inner k).
Proof.
  intros cr p o ops rs w i rs' k HS HD P.
  pose proof (stack_transparent cr ops (new_doc [] []) (new_doc p o) _ _ _ (new_refines false [] []) (new_refines cr p o) (new_refines cr p o)) as K.
  rewrite HS, HD in K. apply K; auto. split; auto.
Qed.
Lemma spec_string : forall cr d o, plain_op o -> preceded_op o -> spec_op cr d (as_string o) = spec_op cr d o.
Proof.
  intros cr d o P Q. destruct o as [s|s|bs| | |]; try reflexivity. cbn [as_string spec_op]. unfold spec_write, spec_write_text.
  destruct (substr_again s (proj2 P) Q) as [S1 S2]. rewrite S1, S2. reflexivity.
Qed.
Lemma spec_strings : forall cr os d, Forall plain_op os -> Forall preceded_op os -> spec_ops cr d (map as_string os) = spec_ops cr d os.
Proof.
  intros cr os. induction os as [|o os IH]; intros d P Q; [reflexivity|]. inversion P; inversion Q; subst. cbn [map spec_ops]. rewrite spec_string by assumption.
  destruct (spec_op cr d o) as [r d']. now rewrite IH.
Qed.
Lemma plain_strings : forall os, Forall plain_op os -> Forall plain_op (map as_string os).
Proof. intros os H. induction H; cbn; constructor; auto using plain_as_string. Qed.
Theorem stacked_writer : forall cr p o ops rs w i rs' k,
  stack_ops (new_writer false false (mksink [] [] false)) (new_writer cr false (mksink p o false)) ops = (rs, (w, i)) ->
  do_ops (new_writer cr false (mksink p o false)) ops = (rs', k) -> Forall plain_op ops -> Forall preceded_op ops ->
  map ok rs = map ok rs' /\ emitted (inner i) = emitted (inner k) /\ abandoned (inner i) = abandoned (inner k).
Proof.
  intros cr p o ops rs w i rs' k HS HD P Q.
  destruct (do_ops (new_writer cr false (mksink p o false)) (map as_string ops)) as [rs2 k2] eqn:E2.
  destruct (stacked_writer_any _ _ _ _ _ _ _ _ _ HS E2 P) as (-> & -> & ->).
  pose proof (ops_refine ops cr (new_doc p o) _ (new_refines cr p o) P) as [R1 R2]. pose proof (ops_refine (map as_string ops) cr (new_doc p o) _ (new_refines cr p o) (plain_strings _ P)) as [R3 R4].
  rewrite HD in R1, R2. rewrite E2, spec_strings in R3, R4 by assumption. cbn [fst snd] in *. rewrite R1, R3.
  destruct (refines_facts _ _ _ R2) as [-> ->]. destruct (refines_facts _ _ _ R4) as [-> ->]. auto.
Qed.
