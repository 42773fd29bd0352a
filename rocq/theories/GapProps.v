(** Isolation, place by place. *)
From Coq Require Import NArith Arith List Bool Lia ZifyBool ZifyNat ZifyN.
From Verif Require Import Base Ucd UcdTables Norm Chars TextTables TextUtils UcdFacts NormFacts CharFacts DocTable SpecText TextFacts PipelineFacts DocFacts IsoFacts
  Utf8 Utf8Facts Input Output ReadFacts ReadInv ReadSession SpecRead ReadChunk SpecEscape EscapeFacts EscapeCheck EscapeRun ReadProps KeepFacts ReadPieces SpecConv ConvFacts
  SpecWrite WriteFacts WriteProps Strings StringFacts ConcatFacts EdgeFacts SpecString StringProps ScalarFacts LossyProps SpecCat CatProps SpecPush PushProps SpecGap.
Import ListNotations.
Local Open Scope N_scope.
Arguments N.add : simpl never.
Arguments N.leb : simpl never.
Arguments N.ltb : simpl never.
Arguments N.eqb : simpl never.
Local Opaque pipeline.

Lemma cgj_assigned : forall c, (c =? 0x34F) = true -> is_assigned c = true.
Proof. intros c H. apply N.eqb_eq in H. subst c. exact assigned_CGJ. Qed.

Lemma coded_go : forall s pp p, isolate_go (at_unassigned p && negb (at_cgj pp)) (at_cgj p) s = filled coded_place pp p s.
Proof.
  induction s as [|c s IH]; intros pp p.
  - cbn [isolate_go filled]. unfold coded_place. cbn [at_cgj at_unassigned]. unfold CGJ. destruct p as [p|]; [|reflexivity].
    cbn [at_cgj at_unassigned]. destruct (p =? 0x34F) eqn:E; [rewrite (cgj_assigned p E); reflexivity|]. rewrite orb_false_r. reflexivity.
  - cbn [isolate_go filled]. unfold coded_place at 1. rewrite <- IH. cbn [at_cgj at_unassigned]. change CGJ with 0x34F.
    destruct (c =? 0x34F) eqn:E.
    + rewrite (cgj_assigned c E). cbn [negb andb orb]. rewrite !andb_false_r. cbn [orb app]. reflexivity.
    + assert (P : at_cgj p = true -> at_unassigned p = false) by (destruct p as [p|]; [cbn; intro H; rewrite (cgj_assigned p H)|]; reflexivity).
      destruct (at_cgj p) eqn:EP.
      * rewrite P by reflexivity. cbn. rewrite !andb_false_r. destruct (is_assigned c); reflexivity.
      * destruct (at_unassigned p), (at_cgj pp), (is_assigned c) eqn:EA; cbn; rewrite ?EA; try reflexivity.
Qed.
Theorem coded_isolated : forall s, isolate_unassigned s = coded_isolation s.
Proof. intro s. exact (coded_go s None None). Qed.

Lemma documented_go : forall s p, isolated_form (at_cgj p) s = match s with [] => [] | c :: t => (if negb (at_cgj p) && negb (is_assigned c) then [0x34F] else []) ++ c :: filled documented_place p (Some c) t end.
Proof.
  induction s as [|c s IH]; intro p; [reflexivity|]. cbn [isolated_form].
  assert (D : s = [] -> filled documented_place p (Some c) s = if is_assigned c then [] else [0x34F]).
  { intros ->. cbn [filled]. unfold documented_place. cbn [at_cgj at_unassigned]. destruct (c =? 0x34F) eqn:E; [rewrite (cgj_assigned c E); reflexivity|]. destruct (is_assigned c); reflexivity. }
  destruct (is_assigned c) eqn:A.
  - rewrite andb_false_r. cbn [app]. f_equal. change (c =? 0x34F) with (at_cgj (Some c)). rewrite IH. destruct s as [|d s]; [now rewrite D|].
    cbn [filled]. unfold documented_place at 2. cbn [at_unassigned at_cgj]. rewrite A. cbn [negb orb].
    destruct (d =? 0x34F) eqn:E; [rewrite (cgj_assigned d E); cbn; now rewrite !andb_false_r|]. cbn. rewrite andb_true_r. reflexivity.
  - rewrite andb_true_r. replace (if at_cgj p then [] else [0x34F]) with (if negb (at_cgj p) then [0x34F] else []) by (destruct (at_cgj p); reflexivity). f_equal. f_equal.
    destruct s as [|d s]; [now rewrite D|]. cbn [filled]. unfold documented_place at 1. cbn [at_unassigned at_cgj]. rewrite A. cbn [negb orb].
    assert (EC : (c =? 0x34F) = false) by (destruct (c =? 0x34F) eqn:E; [rewrite (cgj_assigned c E) in A; discriminate|reflexivity]). rewrite EC. cbn [negb andb].
    destruct (d =? 0x34F) eqn:E.
    + pose proof (IH (Some c)) as X. cbn [at_cgj] in X. rewrite EC in X. rewrite X. rewrite (cgj_assigned d E). reflexivity.
    + pose proof (IH (Some 0x34F)) as X. cbn [at_cgj] in X. rewrite N.eqb_refl in X. rewrite X. cbn [negb andb app]. f_equal. f_equal. clear X.
      destruct s; reflexivity.
Qed.
Theorem documented_isolated : forall s, isolated_form false s = documented_isolation s.
Proof.
  intro s. pose proof (documented_go s None) as H. cbn [at_cgj] in H. rewrite H. unfold documented_isolation. destruct s as [|c s]; [reflexivity|].
  cbn [filled]. unfold documented_place at 2. cbn [at_cgj at_unassigned negb andb orb].
  destruct (c =? 0x34F) eqn:E; [rewrite (cgj_assigned c E)|]; reflexivity.
Qed.

(** * The conversions *)
Local Transparent pipeline.
Lemma coded_pipeline : forall s, pipeline s = coded_form s.
Proof. intro s. unfold pipeline, coded_form, cjk_compat_variants. now rewrite coded_isolated. Qed.
Local Opaque pipeline.
Lemma coded_pieces : forall l, map pipeline l = map coded_form l.
Proof. intro l. apply map_ext. exact coded_pipeline. Qed.

Theorem from_text_exact : forall check s t, string_from_text check s = TOk t <-> strict_accepts s /\ t = nfc (stream_safe (coded_isolation s)).
Proof.
  intros check s t. split.
  - intro H. split; [apply (from_text_succeeds check); eauto|]. rewrite <- coded_isolated. exact (from_text_conversion check s t H).
  - intros [H ->]. apply (from_text_succeeds check) in H. destruct H as [t H]. rewrite H. f_equal. rewrite <- coded_isolated. exact (from_text_conversion check s t H).
Qed.
(** The two isolations differ only at the places after an unassigned character
    that follows U+34F. *)
Theorem places_differ : forall pp p c, documented_place pp p c <> coded_place pp p c <->
  at_cgj pp = true /\ at_unassigned p = true /\ at_cgj c = false /\ at_unassigned c = false.
Proof.
  intros pp p c. unfold documented_place, coded_place.
  assert (P : at_cgj p = true -> at_unassigned p = false) by (destruct p as [p|]; [cbn; intro H; rewrite (cgj_assigned p H)|]; reflexivity).
  destruct (at_cgj p); [rewrite P by reflexivity; cbn; intuition congruence|]. clear P.
  destruct (at_cgj c), (at_unassigned p), (at_unassigned c), (at_cgj pp); cbn; intuition congruence.
Qed.
