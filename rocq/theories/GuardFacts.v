(** Exactly when isolation does what the documentation says. *)
From Coq Require Import NArith Arith List Bool Lia ZifyBool ZifyNat ZifyN.
From Verif Require Import Base Ucd UcdTables Norm Chars TextTables TextUtils UcdFacts NormFacts CharFacts DocTable SpecText TextFacts PipelineFacts DocFacts IsoFacts
  Utf8 Utf8Facts Input Output ReadFacts ReadInv ReadSession SpecRead ReadChunk SpecEscape EscapeFacts EscapeRun ReadProps KeepFacts ReadPieces SpecConv ConvFacts
  SpecWrite WriteFacts WriteProps Strings StringFacts ConcatFacts EdgeFacts SpecString StringProps SpecMore.
Import ListNotations.
Local Open Scope N_scope.
Arguments N.add : simpl never.
Arguments N.leb : simpl never.
Arguments N.ltb : simpl never.
Arguments N.eqb : simpl never.
Local Opaque pipeline.

(** [h]: the previous character is U+34F; [k]: the previous one is unassigned and
    follows U+34F *)
Fixpoint cg (h k : bool) (s : list N) : bool :=
  match s with
  | [] => negb k
  | c :: t => (negb k || (c =? CGJ) || negb (is_assigned c)) && cg (c =? CGJ) (h && negb (is_assigned c)) t
  end.

Lemma cg_foll : forall s n h k, (n = true -> h = false) -> (k = true -> h = false /\ n = false) -> foll_ok (n || k) (isolate_go n h s) = cg h k s.
Proof.
  induction s as [|c s IH]; intros n h k HN HK; cbn [isolate_go cg].
  - destruct n; cbn; [|reflexivity]. rewrite assigned_CGJ. destruct k; [destruct (HK eq_refl); discriminate|reflexivity].
  - destruct (c =? CGJ) eqn:EC.
    + apply N.eqb_eq in EC. subst c. rewrite assigned_CGJ, andb_false_r. cbn [negb andb orb]. rewrite andb_false_r, orb_true_r. cbn [foll_ok andb orb].
      rewrite N.eqb_refl, orb_true_r, assigned_CGJ. cbn [andb negb]. apply (IH false true false); discriminate.
    + rewrite orb_false_r. destruct n; cbn [negb andb orb].
      * assert (h = false) as -> by auto. destruct k; [destruct (HK eq_refl); discriminate|]. cbn [foll_ok negb orb andb]. rewrite N.eqb_refl, assigned_CGJ. cbn [foll_ok negb orb andb].
        destruct (is_assigned c); cbn [negb]; [apply (IH false false false); discriminate|apply (IH true false false); [reflexivity|discriminate]].
      * destruct (is_assigned c) eqn:EA; cbn [negb andb orb].
        -- cbn [foll_ok]. rewrite EC, EA. rewrite !orb_false_r, andb_false_r. cbn [negb]. f_equal. apply (IH false false false); discriminate.
        -- destruct h; cbn [negb andb orb].
           ++ destruct k; [destruct (HK eq_refl); discriminate|]. cbn [foll_ok negb orb andb]. rewrite EA. cbn [negb]. apply (IH false false true); [discriminate|auto].
           ++ cbn [foll_ok]. rewrite N.eqb_refl, assigned_CGJ, !orb_true_r. cbn [foll_ok negb orb andb]. rewrite EA. cbn [negb]. apply (IH true false false); [auto|discriminate].
Qed.
Lemma foll_ok_spec : forall s n, foll_ok n s = true <-> (n = true -> exists t, s = CGJ :: t) /\ forall a c b, s = a ++ c :: b -> is_assigned c = false -> exists b', b = CGJ :: b'.
Proof.
  induction s as [|c s IH]; intro n; cbn [foll_ok].
  - split.
    + intro H. destruct n; [discriminate|]. split; [discriminate|]. intros a c b E. destruct a; discriminate.
    + intros [H _]. destruct n; [|reflexivity]. destruct (H eq_refl); discriminate.
  - split.
    + intro H. pose proof H as H0. apply andb_prop in H. destruct H as [H1 H2]. split.
      * intros ->. cbn in H1. apply N.eqb_eq in H1. subst c. eauto.
      * intros a x b E HX. change (foll_ok n (c :: s) = true) in H0. rewrite E in H0. exact (foll_ok_split _ _ _ _ H0 HX).
    + intros [H1 H2]. apply andb_true_intro. split.
      * destruct n; [|reflexivity]. destruct (H1 eq_refl) as [t E]. injection E as -> _. cbn. apply N.eqb_refl.
      * apply IH. split.
        -- intro K. apply negb_true_iff in K. exact (H2 [] c s eq_refl K).
        -- intros a x b ->. exact (H2 (c :: a) x b eq_refl).
Qed.
Lemma isolated_foll : forall s, isolated (isolate_unassigned s) <-> foll_ok false (isolate_unassigned s) = true.
Proof.
  intro s. rewrite foll_ok_spec. split.
  - intro H. split; [discriminate|]. intros a c b E HC. exact (proj2 (H a c b E HC)).
  - intros [_ H] a c b E HC. split; [exact (iso_preceded s _ _ _ E HC)|exact (H a c b E HC)].
Qed.

Lemma cg_spec : forall s h k, (k = true -> h = false) -> cg h k s = true <->
  (k = true -> exists d t, s = d :: t /\ (d = CGJ \/ is_assigned d = false)) /\
  (h = true -> forall c b, s = c :: b -> is_assigned c = false -> exists d b', b = d :: b' /\ (d = CGJ \/ is_assigned d = false)) /\ closed_guards s.
Proof.
  induction s as [|c s IH]; intros h k HK; cbn [cg].
  - split.
    + intro H. destruct k; [discriminate|]. split; [discriminate|]. split; [intros _ c b E; discriminate|]. intros a c b E. destruct a; discriminate.
    + intros [H _]. destruct k; [|reflexivity]. destruct (H eq_refl) as (d & t & E & _); discriminate.
  - rewrite andb_true_iff, IH.
    2:{ intro K. apply andb_prop in K. destruct K as [_ K]. apply negb_true_iff in K. now rewrite (unassigned_not_CGJ _ K). }
    split.
    + intros (H1 & H2 & H3 & H4). split; [|split].
      * intros ->. cbn in H1. exists c, s. split; [reflexivity|]. apply orb_prop in H1. destruct H1 as [H1|H1]; [left; now apply N.eqb_eq|right; now apply negb_true_iff].
      * intros -> x b E HX. injection E as <- <-. apply H2. now rewrite HX.
      * intros a x b E HX. destruct a as [|y a].
        -- cbn in E. injection E as -> ->. apply (H3 eq_refl x b eq_refl HX).
        -- cbn in E. injection E as -> ->. apply (H4 a x b eq_refl HX).
    + intros (H1 & H2 & H3). split; [|split; [|split]].
      * destruct k; [|reflexivity]. destruct (H1 eq_refl) as (d & t & E & HD). injection E as -> _. cbn. destruct HD as [->|HD]; [now rewrite N.eqb_refl|rewrite HD; apply orb_true_r].
      * intro K. apply andb_prop in K. destruct K as [-> K]. apply negb_true_iff in K. exact (H2 eq_refl c s eq_refl K).
      * intro K. apply N.eqb_eq in K. subst c. intros x b -> HX. exact (H3 [] x b eq_refl HX).
      * intros a x b -> HX. exact (H3 (c :: a) x b eq_refl HX).
Qed.
Theorem iso_isolated_exact : forall s, isolated (isolate_unassigned s) <-> closed_guards s.
Proof.
  intro s. rewrite isolated_foll. unfold isolate_unassigned. change false with (false || false) at 1. rewrite cg_foll by discriminate. rewrite cg_spec by discriminate.
  split; [tauto|]. intro H. split; [discriminate|]. split; [discriminate|exact H].
Qed.
Theorem pipeline_isolated_guards : forall s, closed_guards s -> isolated (pipeline s).
Proof. intros s H. rewrite pipeline_conv. now apply conv_isolated, iso_isolated_exact. Qed.

(** the documented form *)
Lemma iso_form_guards : forall s, (forall h, cg h false s = true -> isolate_go false h s = isolated_form h s)
  /\ (cg false false s = true -> isolate_go true false s = tail_form s) /\ (cg false true s = true -> isolate_go false false s = tail_form s).
Proof.
  induction s as [|c t [IH1 [IH2 IH3]]]; [split; [reflexivity|split; [reflexivity|discriminate]]|]. split; [|split].
  - intros h U. cbn [cg negb orb andb] in U. cbn [isolate_go]. rewrite form_cons. destruct (is_assigned c) eqn:EA; cbn [negb andb orb] in *.
    + f_equal. apply IH1. now rewrite andb_false_r in U.
    + rewrite (unassigned_not_CGJ _ EA) in *. rewrite andb_true_r in U. destruct h; cbn [negb app] in *.
      * f_equal. now apply IH3.
      * do 2 f_equal. now apply IH2.
  - intro U. cbn [cg negb orb andb] in U. cbn [isolate_go tail_form]. rewrite !form_cons. change 0x34F with CGJ.
    destruct (c =? CGJ) eqn:EC; cbn [negb andb orb].
    + apply N.eqb_eq in EC. subst c. rewrite assigned_CGJ. cbn [negb andb orb]. f_equal. now apply IH1.
    + destruct (is_assigned c) eqn:EA; cbn [negb app]; do 2 f_equal; auto.
  - intro U. cbn [cg negb orb andb] in U. cbn [isolate_go tail_form]. rewrite !form_cons. change 0x34F with CGJ. apply andb_prop in U. destruct U as [U1 U2].
    destruct (c =? CGJ) eqn:EC; cbn [negb andb orb] in *.
    + apply N.eqb_eq in EC. subst c. rewrite assigned_CGJ. cbn [negb andb orb]. f_equal. now apply IH1.
    + apply negb_true_iff in U1. rewrite U1. cbn [negb andb orb app]. do 2 f_equal. now apply IH2.
Qed.
Lemma form_isolated : forall s h, foll_ok false (isolated_form h s) = true /\ foll_ok true (tail_form s) = true.
Proof.
  induction s as [|c t IH]; intro h; [split; reflexivity|].
  assert (A : forall h, foll_ok false (isolated_form h (c :: t)) = true).
  { intro h'. rewrite form_cons. destruct (is_assigned c) eqn:EA.
    - cbn. rewrite EA. apply IH.
    - destruct h'; cbn [app foll_ok negb orb andb]; rewrite ?assigned_CGJ, EA; apply (IH true). }
  split; [apply A|]. cbn [tail_form]. destruct (c =? 0x34F) eqn:EC.
  - apply N.eqb_eq in EC. subst c. specialize (A false). rewrite form_cons in *. change 0x34F with CGJ in *. rewrite assigned_CGJ in *. cbn in *. rewrite assigned_CGJ in *. exact A.
  - change 0x34F with CGJ. cbn [foll_ok]. rewrite N.eqb_refl, assigned_CGJ. cbn [orb andb negb]. apply A.
Qed.
Theorem iso_documented_exact : forall s, isolate_unassigned s = isolated_form false s <-> closed_guards s.
Proof.
  intro s. split.
  - intro E. apply iso_isolated_exact, isolated_foll. rewrite E. apply form_isolated.
  - intro H. apply iso_form_guards. apply cg_spec; [discriminate|]. split; [discriminate|]. split; [discriminate|exact H].
Qed.
Lemma unguarded_closed : forall s, unguarded_text s -> closed_guards s.
Proof. intros s H a c b E HC. rewrite (H a c b E) in HC. discriminate. Qed.

(** from_text *)
Theorem from_text_documented_guards : forall check s t, closed_guards s -> string_from_text check s = TOk t <-> strict_accepts s /\ strict_result s t.
Proof.
  intros check s t U. apply iso_documented_exact in U. split.
  - intro H. split; [apply (from_text_succeeds check); eauto|]. unfold strict_result. rewrite <- U. exact (from_text_conversion _ _ _ H).
  - intros [HA HR]. apply (from_text_succeeds check) in HA. destruct HA as [u HU]. pose proof (from_text_conversion _ _ _ HU) as E. unfold strict_result in HR. rewrite HU. f_equal. congruence.
Qed.

(** * A converted text starts with U+34F only if the text does *)
Transparent ccc cd kd compose qc_nfc is_public_assigned cjk_variant.
Lemma chk_canon_cgj : tall (fun (c : N) (d : list N) => negb (hd 0 d =? CGJ)) trie_canon = true.
Proof. vm_compute. reflexivity. Qed.
Lemma chk_cjk_cgj : tall (fun (c : N) (d : N * N) => negb (fst d =? CGJ)) trie_cjk = true.
Proof. vm_compute. reflexivity. Qed.
Lemma cjk_cgj : forall c b v, cjk_variant c = Some (b, v) -> (b =? CGJ) = false.
Proof. intros c b v E. apply (tall_spec _ _ _ _ _ chk_cjk_cgj) in E. now apply negb_true_iff in E. Qed.
Global Opaque ccc cd kd compose qc_nfc is_public_assigned cjk_variant.
Lemma cdh_cgj : forall c, cdh c = CGJ -> c = CGJ.
Proof.
  intros c H. unfold cdh in H. destruct (cd_cases c) as [E|[[A E]|E]].
  - rewrite E in H. exact H.
  - exfalso. rewrite E in H. unfold decompose_hangul in H. cbn zeta in H. match type of H with hd 0 (if ?b then _ else _) = _ => destruct b end;
      cbn [hd] in H; unfold L_BASE, CGJ in H; clear - H; lia.
  - apply (canon_lift _ chk_canon_cgj) in E. cbn beta in E. rewrite H in E. discriminate.
Qed.
Lemma nfc_cgj : forall s t, nfc s = CGJ :: t -> exists s', s = CGJ :: s'.
Proof.
  intros s t H. pose proof (nfd_nfc s) as E. rewrite H in E. destruct s as [|c s].
  { rewrite nfc_nil in H. discriminate. }
  assert (ED : nfd (CGJ :: t) = CGJ :: nfd t).
  { destruct boring_CGJ as [(H1 & H2 & _) _]. unfold nfd. cbn [flat_map]. rewrite H2. cbn [app]. rewrite order_cons. now apply ins_starter. }
  rewrite ED in E. destruct (N.eq_dec (ccc (cdh c)) 0) as [Z|NZ].
  - destruct (nfd_cons_hd c s Z) as [v E2]. rewrite E2 in E. injection E as E _. symmetry in E. apply cdh_cgj in E. subst c. eauto.
  - destruct (cd_cons c) as [u EU]. unfold nfd in E at 2. cbn [flat_map] in E. rewrite EU in E. cbn [app] in E. rewrite order_cons in E.
    destruct (ins_head_ns (cdh c) (order (u ++ flat_map cd s)) NZ) as (y & v & E3 & HY). rewrite E3 in E. injection E as E _. subst y.
    destruct boring_CGJ as [(H1 & _) _]. contradiction.
Qed.
Lemma conv_cgj : forall s t, conv s = CGJ :: t -> exists s', s = CGJ :: s'.
Proof.
  intros s t H. unfold conv in H. apply nfc_cgj in H. destruct H as [u H]. destruct s as [|c s]; [discriminate|].
  unfold cjk_compat_variants in H. cbn [flat_map] in H. assert (HS : forall x y, exists z, stream_safe (x :: y) = x :: z).
  { intros x y. unfold stream_safe. cbn [stream_safe_go]. pose proof (cl_leading_le x).
    assert (Nat.ltb MAX_NONSTARTERS (0 + cl_leading x) = false) as -> by (apply Nat.ltb_ge; unfold MAX_NONSTARTERS; lia). eauto. }
  unfold cjk1 at 1 in H. destruct (c <=? 127).
  - cbn [app] in H. destruct (HS c (flat_map cjk1 s)) as [z E]. rewrite E in H. injection H as -> _. eauto.
  - destruct (cjk_variant c) as [[b v]|] eqn:EV; cbn [app] in H.
    + destruct (HS b (v :: flat_map cjk1 s)) as [z E]. rewrite E in H. injection H as -> _. apply cjk_cgj in EV. rewrite N.eqb_refl in EV. discriminate.
    + destruct (HS c (flat_map cjk1 s)) as [z E]. rewrite E in H. injection H as -> _. eauto.
Qed.
Theorem pipeline_isolated_exact : forall s, isolated (pipeline s) <-> closed_guards s.
Proof.
  intro s. split; [|apply pipeline_isolated_guards]. intro H. apply iso_isolated_exact. intros a c b E HC. split; [exact (iso_preceded s _ _ _ E HC)|].
  rewrite pipeline_conv, E in H. rewrite conv_split in H by now apply unassigned_boring. destruct (H _ _ _ eq_refl HC) as [_ [y EY]]. exact (conv_cgj _ _ EY).
Qed.
Lemma form_in : forall s h x, (In x (isolated_form h s) -> x = CGJ \/ In x s) /\ (In x (tail_form s) -> x = CGJ \/ In x s).
Proof.
  induction s as [|c t IH]; intros h x.
  - cbn. change 0x34F with CGJ. intuition.
  - assert (A : forall h, In x (isolated_form h (c :: t)) -> x = CGJ \/ In x (c :: t)).
    { intros h'. rewrite form_cons. change 0x34F with CGJ. destruct (is_assigned c).
      - intros [<-|H]; [right; now left|]. apply IH in H. destruct H; [auto|right; now right].
      - intro H. apply in_app_or in H. destruct H as [H|[<-|H]]; [|right; now left|apply (IH true) in H; destruct H; [auto|right; now right]].
        destruct h'; cbn in H; [contradiction|]. destruct H as [<-|[]]. now left. }
    split; [apply A|]. cbn [tail_form]. destruct (c =? 0x34F); [apply A|]. intros [<-|H]; [now left|exact (A _ H)].
Qed.
Theorem from_text_documented_exact : forall check s t, string_from_text check s = TOk t -> strict_result s t <-> closed_guards s.
Proof.
  intros check s t HT. split; [|intro H; now apply (from_text_documented_guards check) in HT].
  intro HR. apply pipeline_isolated_exact. rewrite string_from_text_spec in HT. destruct (accepted s) eqn:EA; [|discriminate]. injection HT as HT.
  apply accepted_clean in EA. intros x c y E HC. split; [exact (pipeline_preceded s _ _ _ E HC)|]. rewrite HT, HR in E.
  assert (EJ : cjk_compat_variants (isolated_form false s) = isolated_form false s).
  { apply cjk_clean_id. apply Forall_forall. intros z HZ. apply form_in in HZ. destruct HZ as [->|HZ]; [exact clean_CGJ|]. rewrite Forall_forall in EA. now apply EA. }
  assert (EC : conv (isolated_form false s) = x ++ c :: y) by (unfold conv; now rewrite EJ).
  destruct (conv_origin _ _ _ _ EC HC) as (a & b & EF & <- & <-). pose proof (proj1 (form_isolated s false)) as HF. apply foll_ok_spec in HF. destruct HF as [_ HF].
  destruct (HF _ _ _ EF HC) as [b' ->]. change 0x34F with CGJ. rewrite conv_cons by exact boring_CGJ. eauto.
Qed.
Lemma guards_check : forall s, cg false false s = true -> closed_guards s.
Proof. intros s H. apply cg_spec in H; [tauto|discriminate]. Qed.
Theorem from_text_same : forall s t, string_from_text is_basic_text_substr s = TOk t <-> string_from_text is_basic_text s = TOk t.
Proof. intros s t. rewrite !string_from_text_spec. destruct (accepted s); [tauto|]. split; discriminate. Qed.
