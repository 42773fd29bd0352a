(** The compatibility options on text without the separators they are about. *)
From Coq Require Import NArith Arith List Bool Lia.
From Verif Require Import Base Ucd Norm Chars TextUtils SpecText TextFacts PipelineFacts IsoFacts
  Utf8 Utf8Facts Input Output ReadFacts ReadInv ReadSession SpecRead ReadChunk SpecEscape ReadProps SpecConv
  SpecWrite Strings SpecString StringProps LossyProps SpecMore CanonProps SpecCut CutProps SpecCat ReadMore ReadPieces SpecLayer.
Import ListNotations.
Local Open Scope N_scope.

(** * Options on text without the separators they are about *)
Lemma tstep_indifferent : forall nel lsps nel2 lsps2 x c, indifferent nel lsps nel2 lsps2 [c] -> tstep nel lsps x c = tstep nel2 lsps2 x c.
Proof.
  intros nel lsps nel2 lsps2 [e s] c [H1 H2].
  assert (E1 : nel && (c =? NEL) = nel2 && (c =? NEL)).
  { destruct H1 as [->|H1]; [reflexivity|]. destruct (N.eqb_spec c NEL) as [->|_]; [elim H1; now left|]. now rewrite !andb_false_r. }
  assert (E2 : lsps && ((c =? LS) || (c =? PS)) = lsps2 && ((c =? LS) || (c =? PS))).
  { destruct H2 as [->|[H2 H3]]; [reflexivity|]. destruct (N.eqb_spec c LS) as [->|_]; [elim H2; now left|]. destruct (N.eqb_spec c PS) as [->|_]; [elim H3; now left|].
    cbn. now rewrite !andb_false_r. }
  assert (G : forall q e s, let i1 := mkinput q [] 0 Active e false nel lsps s in let i2 := mkinput q [] 0 Active e false nel2 lsps2 s in
    let j1 := step_ground i1 c in let j2 := step_ground i2 c in (queue j1, (expect_starter j1, st j1)) = (queue j2, (expect_starter j2, st j2))).
  { intros q e0 s0. cbv zeta. unfold step_ground. repeat (match goal with |- context [if ?b then _ else _] => destruct b; [reflexivity|] end).
    unfold ground_char. cbn [nel_compat lsps_compat queue st expect_starter]. rewrite E1, E2. reflexivity. }
  unfold tstep, step, stub. cbn [fst snd st]. destruct s; unfold set_st, push_set; cbn [queue iter quick pending expect_starter at_start nel_compat lsps_compat st];
    try (apply G); repeat (match goal with |- context [if ?b then _ else _] => destruct b end; try reflexivity; try apply G).
Qed.
Lemma indifferent_app : forall n l n2 l2 a b, indifferent n l n2 l2 (a ++ b) <-> indifferent n l n2 l2 a /\ indifferent n l n2 l2 b.
Proof. intros n l n2 l2 a b. unfold indifferent. rewrite !in_app_iff. tauto. Qed.
Lemma trans_indifferent : forall n l n2 l2 cs x, indifferent n l n2 l2 cs -> trans n l x cs = trans n2 l2 x cs.
Proof.
  induction cs as [|c cs IH]; intros x H; [reflexivity|]. change (c :: cs) with ([c] ++ cs) in H. apply indifferent_app in H. destruct H as [H1 H2]. cbn [trans].
  rewrite (tstep_indifferent n l n2 l2 x c H1). destruct (tstep n2 l2 x c) as [o x']. now rewrite IH.
Qed.
Lemma body_indifferent : forall n l n2 l2 b cs, indifferent n l n2 l2 cs -> indifferent n l n2 l2 (body b cs).
Proof.
  intros n l n2 l2 b cs H. unfold body. destruct b; [|exact H]. destruct cs as [|c cs]; [exact H|]. destruct (c =? BOM); [|exact H].
  change (c :: cs) with ([c] ++ cs) in H. now apply indifferent_app in H.
Qed.
Lemma absorb_indifferent : forall n l n2 l2 a raw s, indifferent n l n2 l2 raw -> absorb n l a raw s = absorb n2 l2 a raw s.
Proof.
  intros n l n2 l2 a raw s H. unfold absorb, pushed. now rewrite (trans_indifferent n l n2 l2 _ _ (body_indifferent _ _ _ _ (a_start a) _ H)).
Qed.
Lemma feed_indifferent : forall n l n2 l2 evs a, indifferent n l n2 l2 (concat (map fst evs)) -> feed n l a evs = feed n2 l2 a evs.
Proof.
  induction evs as [|[raw s] evs IH]; intros a H; [reflexivity|]. cbn [map fst concat] in H. apply indifferent_app in H. destruct H as [H1 H2]. cbn [feed].
  rewrite (absorb_indifferent n l n2 l2 _ _ _ H1). destruct (absorb n2 l2 a raw s) as [new a']. now rewrite IH.
Qed.
Lemma evs_text : forall script, concat (map fst (evs_of script)) = stream_text script.
Proof. induction script as [|[cs s|] script IH]; [reflexivity| |exact IH]. destruct s; cbn; rewrite ?IH, ?app_nil_r; reflexivity. Qed.
Theorem options_indifferent : forall n l n2 l2 script, indifferent n l n2 l2 (stream_text script) -> converted_stream n l script = converted_stream n2 l2 script.
Proof. intros n l n2 l2 script H. unfold converted_stream. rewrite <- evs_text in H. now rewrite (feed_indifferent n l n2 l2). Qed.
Theorem gives_indifferent : forall n l n2 l2 script t t2, gives n l script t -> gives n2 l2 script t2 -> indifferent n l n2 l2 (stream_text script) -> t = t2.
Proof.
  intros n l n2 l2 script t t2 (z & rs & j & rest & H & E & <-) (z2 & rs2 & j2 & rest2 & H2 & E2 & <-) I.
  destruct (session_end _ _ _ _ _ _ _ H E) as (-> & _). destruct (session_end _ _ _ _ _ _ _ H2 E2) as (-> & _). now apply options_indifferent.
Qed.
Lemma clean_indifferent : forall n l n2 l2 s, Forall allowed s -> indifferent n l n2 l2 s.
Proof.
  intros n l n2 l2 s H. assert (K : forall x, In x s -> allowed x) by now apply Forall_forall.
  split; right; [|split]; intro HI; apply K in HI; vm_compute in HI; discriminate.
Qed.
(** with any options *)
Theorem kept_exact_any : forall n l script sizes rs j rest, no_push script -> reads (new_input n l) script sizes = (rs, j, rest) -> reached_end rs ->
  delivered rs = stream_text script <->
  string_ok (stream_text script) /\ line_terminated (stream_text script) /\ preceded (stream_text script) /\ ~ badly_cut script.
Proof.
  intros n l script sizes rs j rest NP R E. destruct (session_end _ _ _ _ _ _ _ R E) as (-> & _).
  assert (G : Forall allowed (stream_text script) -> converted_stream n l script = stream_text script <->
     string_ok (stream_text script) /\ line_terminated (stream_text script) /\ preceded (stream_text script) /\ ~ badly_cut script).
  { intro A. rewrite (options_indifferent n l false false script (clean_indifferent _ _ _ _ _ A)).
    destruct (session_terminates false false script) as [m HM]. destruct (HM (repeat 136%nat m)) as (k & rs0 & j0 & rest0 & R0 & E0).
    - apply Forall_forall. intros b HB. apply repeat_spec in HB. subst. auto.
    - rewrite repeat_length. auto.
    - destruct (session_end _ _ _ _ _ _ _ R0 E0) as (D0 & _). rewrite <- D0. exact (kept_cut_exact _ _ _ _ _ NP R0 E0). }
  split; [|intros (A & B); apply G; [apply A|auto]]. intro K. apply G; [|exact K].
  pose proof (converted_ok n l script) as [A _]. rewrite K in A. apply basic_text_spec in A. apply A.
Qed.
