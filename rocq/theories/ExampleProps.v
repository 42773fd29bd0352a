(** The line filters of /repo/examples (C79). *)
From Coq Require Import NArith Arith List Bool Lia ZifyBool ZifyNat ZifyN.
From Verif Require Import Base Ucd Norm Chars TextUtils UcdFacts NormFacts CharFacts SpecText TextFacts PipelineFacts IsoFacts KeepFacts Utf8 Utf8Facts Input ReadFacts ReadInv ReadSession SpecRead ReadProps ScalarFacts Copy CopyProps Output StdIo SpecStd StdProps Strings Lines LineProps SpecExamples Examples.
Import ListNotations.
Local Open Scope N_scope.
Arguments N.add : simpl never.
Arguments N.leb : simpl never.
Arguments N.ltb : simpl never.
Arguments N.eqb : simpl never.

Lemma quick_plain_sound : forall s lc r, quick_check_plain lc r s = Yes -> ordered s /\ ge_hd lc s /\ Forall yes s /\ r = Yes.
Proof.
  induction s as [|ch t IH]; intros lc r H; cbn [quick_check_plain] in H; [cbn; auto|].
  destruct (ch <=? 127) eqn:EA.
  - destruct (ascii_facts ch) as (CC & CL & CN & HY); [lia|]. destruct (IH _ _ H) as (O & G & F & R). split; [|split; [|auto]].
    + cbn [ordered]. split; [|exact O]. destruct t as [|y t]; [exact I|]. rewrite CC. right. lia.
    + cbn. now left.
  - destruct ((ccc ch <? lc) && negb (ccc ch =? 0)) eqn:EC; [discriminate|]. destruct (qc_nfc ch) eqn:EQ; [|discriminate|].
    + destruct (IH _ _ H) as (O & G & F & R). split; [|split; [|split; [constructor; auto|exact R]]].
      * cbn [ordered]. split; [|exact O]. destruct t as [|y t]; [exact I|]. exact G.
      * cbn. lia.
    + destruct (IH _ _ H) as (_ & _ & _ & R). discriminate.
Qed.
Lemma nfc_line_eq : forall l, nfc_line l = nfc l.
Proof. intro l. unfold nfc_line, is_nfc_quick. destruct (quick_check_plain 0 Yes l) eqn:E; auto. apply quick_plain_sound in E. symmetry. now apply nfc_yes. Qed.
Lemma ssnfc_line_eq : forall l, ssnfc_line l = nfc (stream_safe l).
Proof.
  intro l. unfold ssnfc_line. destruct (is_nfc_stream_safe_quick l) eqn:E; auto.
  assert (H : is_nfc_stream_safe l = true) by (unfold is_nfc_stream_safe; now rewrite E). apply is_nfc_stream_safe_spec in H. destruct H as [H1 H2]. now rewrite H2, H1.
Qed.

(** What the lines are. *)
Definition strip_cr (a : list N) : list N := if ends_with CR a then removelast a else a.
Lemma strip_line : forall a, strip_eol (a ++ [LF]) = strip_cr a.
Proof. intro a. unfold strip_eol, ends_with at 1. rewrite last_opt_snoc, N.eqb_refl, removelast_last. reflexivity. Qed.
Lemma unix_cons : forall c t, c <> CR -> unix (c :: t) = c :: unix t.
Proof. intros c t H. cbn [unix]. change 13 with CR. apply N.eqb_neq in H. now rewrite H. Qed.
Lemma unix_line : forall a b, ~ In LF a -> unix (a ++ LF :: b) = strip_cr a ++ LF :: unix b.
Proof.
  induction a as [|c a IH]; intros b H; [reflexivity|]. cbn [app unix]. change 13 with CR. change 10 with LF.
  assert (HA : ~ In LF a) by (intro K; apply H; now right). rewrite (IH b HA). destruct a as [|d a].
  - cbn [app]. rewrite N.eqb_refl, andb_true_r. unfold strip_cr, ends_with. cbn [last_opt removelast]. destruct (c =? CR); reflexivity.
  - cbn [app]. assert (d =? LF = false) as -> by (apply N.eqb_neq; intros ->; apply HA; now left). rewrite andb_false_r.
    unfold strip_cr, ends_with. change (last_opt (c :: d :: a)) with (last_opt (d :: a)). destruct (match last_opt (d :: a) with Some x => x =? CR | None => false end); reflexivity.
Qed.
Lemma unix_none : forall a, ~ In LF a -> unix a = a.
Proof.
  induction a as [|c a IH]; intro H; [reflexivity|]. cbn [unix]. rewrite IH by (intro K; apply H; now right).
  destruct a as [|d a]; [now rewrite andb_false_r|]. assert (d =? 10 = false) as -> by (apply N.eqb_neq; intros ->; apply H; right; now left). now rewrite andb_false_r.
Qed.
Lemma last_app_LF : forall a b, last_opt (a ++ LF :: b) = match b with [] => Some LF | _ => last_opt b end.
Proof.
  intros a b. destruct b as [|y b]; [apply last_opt_snoc|]. destruct (exists_last (l := y :: b)) as (b' & z & E); [discriminate|]. rewrite E, app_comm_cons, app_assoc, !last_opt_snoc. reflexivity.
Qed.
Lemma terminated_line : forall a b, terminated (a ++ LF :: b) = a ++ LF :: terminated b.
Proof.
  intros a b. unfold terminated. rewrite last_app_LF. destruct b as [|y b]; [reflexivity|]. destruct (last_opt (y :: b)) as [z|] eqn:E.
  - destruct (z =? 10); [reflexivity|]. now rewrite <- app_assoc.
  - destruct (exists_last (l := y :: b)) as (b' & z & E'); [discriminate|]. rewrite E', last_opt_snoc in E. discriminate.
Qed.
Lemma terminated_none : forall a, a <> [] -> ~ In LF a -> terminated a = a ++ [LF].
Proof.
  intros a H I. unfold terminated. destruct (exists_last H) as (a' & z & ->). rewrite last_opt_snoc.
  assert (z =? 10 = false) as -> by (apply N.eqb_neq; intros ->; apply I; apply in_or_app; right; now left). reflexivity.
Qed.

(** Any conversion that works line by line. *)
Section Filter.
Variable F : list N -> list N.
Hypothesis F_nil : F [] = [].
Hypothesis F_split : forall a i b, boring i -> F (a ++ i :: b) = F a ++ i :: F b.
Hypothesis F_nonnil : forall s, s <> [] -> F s <> [].
Hypothesis F_in : forall s x, x = LF \/ x = CR -> In x (F s) -> In x s.
Hypothesis F_idem : forall s, F (F s) = F s.
Hypothesis F_part : forall a b, F (a ++ b) = a ++ b -> F a = a /\ F b = b.

Lemma F_snoc : forall a, F (a ++ [LF]) = F a ++ [LF].
Proof. intro a. rewrite F_split by exact boring_LF. now rewrite F_nil. Qed.
Lemma cat_spec : forall conv, (forall l, conv l = F l) -> forall f s, (length s <= f)%nat -> cat_go f conv s = F (terminated (unix s)).
Proof.
  intros conv HC. induction f as [|f IH]; intros s HL; [destruct s; [cbn; now rewrite F_nil|cbn in HL; lia]|]. destruct s as [|c s]; [cbn; now rewrite F_nil|]. cbn [cat_go].
  destruct (until_lf_cases (c :: s)) as [[H1 H2]|(p & t & E & H1 & H2)]; rewrite H2.
  - rewrite unix_none, terminated_none by (assumption || discriminate). unfold strip_eol. rewrite not_ends by exact H1. rewrite HC.
    destruct f; cbn [cat_go]; apply app_nil_r.
  - rewrite E in *. rewrite unix_line, terminated_line, strip_line, HC, F_snoc, F_split by (exact H1 || exact boring_LF). rewrite IH by (rewrite app_length in HL; cbn in HL; lia).
    now rewrite <- app_assoc.
Qed.
Definition run (s : list N) : list N := F (terminated (unix s)).
Lemma terminated_end : forall s, s = [] \/ exists t, terminated s = t ++ [LF].
Proof.
  intro s. unfold terminated. destruct s as [|c s]; [now left|right]. destruct (exists_last (l := c :: s)) as (s' & z & E); [discriminate|]. rewrite E, last_opt_snoc.
  destruct (z =? 10) eqn:EZ; [apply N.eqb_eq in EZ; subst z|]; eauto.
Qed.
Lemma run_end : forall s, s = [] \/ exists t, run s = t ++ [LF].
Proof.
  intro s. unfold run. destruct (terminated_end (unix s)) as [E|[t ->]]; [|right; rewrite F_snoc; eauto].
  left. assert (U : forall s, unix s = [] -> s = []).
  { clear. induction s as [|c s IH]; [auto|]. cbn [unix]. destruct (_ && _) eqn:E; [|discriminate]. intro H. apply IH in H. subst s. rewrite andb_false_r in E. discriminate. }
  now apply U.
Qed.
Lemma unix_stable : forall s, F s = s -> F (unix s) = unix s.
Proof.
  intros s. induction s as [s IH] using (well_founded_induction (well_founded_ltof _ (@length N))). intro H.
  destruct (until_lf_cases s) as [[H1 _]|(p & t & -> & H1 & _)]; [now rewrite unix_none|]. rewrite unix_line, F_split by (exact H1 || exact boring_LF).
  destruct (F_part _ _ H) as [HP HT]. change (LF :: t) with ([LF] ++ t) in HT. apply F_part in HT. destruct HT as [_ HT].
  rewrite (IH t) by (unfold ltof; rewrite ?app_length; cbn; auto; lia). f_equal. unfold strip_cr. destruct (ends_with CR p) eqn:E; [|exact HP].
  destruct p as [|x p']; [discriminate|]. destruct (exists_last (l := x :: p')) as (q & z & E'); [discriminate|]. rewrite E' in *. rewrite removelast_last. now apply F_part in HP.
Qed.
Lemma unix_snoc : forall t, exists u, unix (t ++ [LF]) = u ++ [LF].
Proof.
  intros t. induction t as [t IH] using (well_founded_induction (well_founded_ltof _ (@length N))).
  destruct (until_lf_cases t) as [[H1 _]|(p & t' & -> & H1 & _)]; [rewrite unix_line by exact H1; eauto|]. rewrite <- app_assoc. cbn [app]. rewrite unix_line by exact H1.
  destruct (IH t') as [u ->]; [unfold ltof; rewrite app_length; cbn; lia|]. exists (strip_cr p ++ LF :: u). now rewrite <- app_assoc.
Qed.
Theorem run_twice : forall s, run (run s) = unix (run s).
Proof.
  intro s. assert (ST : F (unix (run s)) = unix (run s)) by (apply unix_stable; apply F_idem). unfold run at 1.
  destruct (run_end s) as [->|[t E]]; [change (run []) with (F []); rewrite F_nil; exact F_nil|]. rewrite E in *. destruct (unix_snoc t) as [u EU]. rewrite EU in *.
  unfold terminated. rewrite last_opt_snoc. exact ST.
Qed.
Lemma unix_same : forall s, unix s = s <-> ~ has_crlf s.
Proof.
  assert (LEN : forall s, (length (unix s) <= length s)%nat) by (induction s as [|c s IH]; [cbn; lia|]; cbn [unix]; destruct (_ && _); cbn [length]; lia).
  induction s as [|c s IH]; [split; [intros _ (a & b & H); destruct a; discriminate|reflexivity]|]. cbn [unix]. destruct (_ && _) eqn:E.
  - split; [intro H; exfalso; apply (f_equal (@length N)) in H; specialize (LEN s); cbn in H; lia|]. intro H. exfalso. apply H. destruct s as [|d s]; [rewrite andb_false_r in E; discriminate|].
    apply andb_prop in E. destruct E as [E1 E2]. apply N.eqb_eq in E1. apply N.eqb_eq in E2. subst. now exists [], s.
  - split.
    + intro H. injection H as H. apply IH in H. intros (a & b & K). destruct a as [|x a]; [injection K as -> ->; discriminate|]. injection K as -> ->. apply H. now exists a, b.
    + intro H. f_equal. apply IH. intros (a & b & ->). apply H. now exists (c :: a), b.
Qed.
Lemma crlf_kept : forall t, has_crlf (F t) <-> has_crlf t.
Proof.
  intros t. split.
  2:{ intros (a & b & ->). change 0xD with CR. change 0xA with LF. rewrite F_split by exact boring_CR. pose proof (F_split [] LF b boring_LF) as E. cbn [app] in E. rewrite E, F_nil. now exists (F a), (F b). }
  induction t as [t IH] using (well_founded_induction (well_founded_ltof _ (@length N))). intros (x & y & E).
  assert (I : In CR t) by (apply F_in; [now right|]; rewrite E; apply in_or_app; right; now left).
  assert (FC : forall (z : N) (s : list N), In z s -> exists a b, s = a ++ z :: b /\ ~ In z a).
  { clear. intros z. induction s as [|c s IH]; intro H; [destruct H|]. destruct (N.eq_dec c z) as [->|E]; [exists [], s; auto|].
    destruct H as [H|H]; [congruence|]. destruct (IH H) as (a & b & -> & K). exists (c :: a), b. split; [reflexivity|]. intros [L|L]; auto. }
  destruct (FC _ _ I) as (a & b & -> & NA). rewrite F_split in E by exact boring_CR.
  assert (NA' : ~ In CR (F a)) by (intro K; apply NA; apply F_in; auto).
  assert (C : (x = F a /\ F b = LF :: y) \/ exists x', F b = x' ++ CR :: LF :: y).
  { clear -E NA'. revert x E. change 13 with CR. change 10 with LF. induction (F a) as [|c l IHl]; intros x E.
    - destruct x as [|d x]; [injection E as E; left; auto|]. injection E as <- E. right. eauto.
    - destruct x as [|d x]; [injection E as -> _; exfalso; apply NA'; now left|]. injection E as <- E. apply IHl in E; [|intro K; apply NA'; now right].
      destruct E as [[-> E]|E]; auto. }
  destruct C as [[_ C]|[x' C]].
  - assert (IL : In LF b) by (apply F_in; [now left|]; rewrite C; now left). destruct (FC _ _ IL) as (u & v & -> & NU). rewrite F_split in C by exact boring_LF.
    destruct u as [|c u]; [now exists a, v|]. exfalso. destruct (F (c :: u)) as [|d l] eqn:EU; [apply (F_nonnil (c :: u)); [discriminate|exact EU]|].
    injection C as -> _. apply NU. apply F_in; [now left|]. rewrite EU. now left.
  - destruct (IH b) as (p & q & ->); [unfold ltof; rewrite app_length; cbn; lia|now exists x', y|]. exists (a ++ CR :: p), q. now rewrite <- app_assoc.
Qed.
Lemma crlf_source : forall s, has_crlf (terminated (unix s)) <-> (exists a b, s = a ++ 0xD :: 0xD :: 0xA :: b) \/ exists a, s = a ++ [0xD].
Proof.
  change 13 with CR. change 10 with LF. intros s. induction s as [s IH] using (well_founded_induction (well_founded_ltof _ (@length N))).
  assert (NOLF : forall p, ~ In LF p -> has_crlf (p ++ [LF]) -> exists a, p = a ++ [CR]).
  { intros p H (a & b & E). change 13 with CR in E. change 10 with LF in E. destruct b as [|y b].
    - exists a. change (a ++ [CR; LF]) with (a ++ [CR] ++ [LF]) in E. rewrite app_assoc in E. now apply snoc_inj in E.
    - exfalso. destruct (exists_last (l := y :: b)) as (b' & z & E'); [discriminate|]. rewrite E', !app_comm_cons, app_assoc in E. apply snoc_inj in E. destruct E as [E _]. apply H. rewrite E.
      apply in_or_app. right. right. now left. }
  destruct (until_lf_cases s) as [[H1 _]|(p & t & -> & H1 & _)].
  - rewrite unix_none by exact H1. destruct s as [|c s]; [split; [intros (a & b & E); destruct a; discriminate|intros [(a & b & E)|[a E]]; destruct a; discriminate]|].
    rewrite terminated_none by (assumption || discriminate). split; [intro K; right; exact (NOLF _ H1 K)|].
    intros [(a & b & E)|[a ->]]; [exfalso; apply H1; rewrite E; apply in_or_app; right; right; right; now left|]. exists a, []. now rewrite <- app_assoc.
  - rewrite unix_line, terminated_line by exact H1. specialize (IH t ltac:(unfold ltof; rewrite app_length; cbn; lia)).
    assert (SP : forall q r, has_crlf (q ++ LF :: r) <-> has_crlf (q ++ [LF]) \/ has_crlf r).
    { clear. intros q r. split.
      - intros (a & b & E). revert a E. change 13 with CR. change 10 with LF. induction q as [|c q IHq]; intros a E.
        + destruct a as [|x a]; [discriminate|]. injection E as <- E. right. now exists a, b.
        + destruct a as [|x a].
          * injection E as -> E. destruct q as [|d q]; [left; now exists [], []|]. injection E as -> _. left. now exists [], (q ++ [LF]).
          * injection E as <- E. apply IHq in E. destruct E as [(u & v & E)|E]; [left|now right]. exists (c :: u), v. cbn [app]. now rewrite E.
      - intros [(a & b & E)|(a & b & ->)]; [|exists (q ++ LF :: a), b; now rewrite <- app_assoc].
        exists a, (b ++ r). change (q ++ LF :: r) with (q ++ [LF] ++ r). rewrite app_assoc, E, <- app_assoc. reflexivity. }
    rewrite SP, IH. split.
    + intros [K|[(a & b & ->)|[a ->]]].
      * apply NOLF in K; [|unfold strip_cr; destruct (ends_with CR p) eqn:EP; [|exact H1]; intro K'; apply H1; destruct p as [|x p']; [destruct K'|]; destruct (exists_last (l := x :: p')) as (q & z & E'); [discriminate|]; rewrite E' in *; rewrite removelast_last in K'; apply in_or_app; now left].
        destruct K as [a K]. unfold strip_cr in K. destruct (ends_with CR p) eqn:EP.
        -- destruct p as [|x p']; [discriminate|]; destruct (exists_last (l := x :: p')) as (q & z & E'); [discriminate|]; rewrite E' in *; rewrite removelast_last in K. subst q.
           unfold ends_with in EP. rewrite last_opt_snoc in EP. apply N.eqb_eq in EP. subst z. left. exists a, t. now rewrite <- !app_assoc.
        -- subst p. unfold ends_with in EP. rewrite last_opt_snoc in EP. rewrite N.eqb_refl in EP. discriminate.
      * left. exists (p ++ LF :: a), b. now rewrite <- app_assoc.
      * right. exists (p ++ LF :: a). now rewrite <- app_assoc.
    + intros [(a & b & E)|[a E]].
      * assert (C : (p = a ++ [CR; CR] /\ b = t) \/ exists a', t = a' ++ CR :: CR :: LF :: b).
        { clear -E H1. revert a E. induction p as [|c p IHp]; intros a E.
          - destruct a as [|x a]; [discriminate|]. injection E as <- E. right. eauto.
          - destruct a as [|x a].
            + injection E as -> E. destruct p as [|d p]; [discriminate|]. injection E as -> E. destruct p as [|e p]; [injection E as E; left; auto|]. injection E as -> _. exfalso. apply H1. right. right. now left.
            + injection E as <- E. apply IHp in E; [|intro K; apply H1; now right]. destruct E as [[-> E]|E]; auto. }
        destruct C as [[-> ->]|[a' ->]]; [|right; left; eauto]. left. unfold strip_cr, ends_with. change (a ++ [CR; CR]) with (a ++ [CR] ++ [CR]). rewrite app_assoc, last_opt_snoc, N.eqb_refl, removelast_last.
        exists a, []. now rewrite <- app_assoc.
      * right. right. destruct t as [|y t]; [apply snoc_inj in E; destruct E as [_ E]; discriminate|]. destruct (exists_last (l := y :: t)) as (b' & z & E'); [discriminate|]. rewrite E' in *.
        rewrite app_comm_cons, app_assoc in E. apply snoc_inj in E. destruct E as [_ ->]. now exists b'.
Qed.
Theorem run_idem : forall s, run (run s) = run s <-> ~ ((exists a b, s = a ++ 0xD :: 0xD :: 0xA :: b) \/ exists a, s = a ++ [0xD]).
Proof. intro s. rewrite run_twice, unix_same. unfold run. now rewrite crlf_kept, crlf_source. Qed.
End Filter.

Lemma nfc_in : forall s x, x = LF \/ x = CR -> In x (nfc s) -> In x s.
Proof.
  intros s x HX HI. assert (HK : kept_char x = true) by (destruct HX; subst; reflexivity). destruct (in_dec N.eq_dec x s) as [I|I]; [exact I|exfalso].
  assert (F : Forall (fun c => c <> x) (nfc s)).
  { apply nfc_forall; [intros k c r E _ _ ->; apply compose_kept in E; congruence|].
    apply Forall_forall. intros z HZ ->. apply in_flat_map in HZ. destruct HZ as (y & HY & HZ). apply (fun h => cd_kept _ _ h HK) in HZ. subst y. contradiction. }
  rewrite Forall_forall in F. now apply (F x).
Qed.
Lemma ss_conv_in : forall s x, x = LF \/ x = CR -> In x (nfc (stream_safe s)) -> In x s.
Proof. intros s x HX H. apply nfc_in in H; [|exact HX]. unfold stream_safe in H. apply ss_in in H. destruct H as [H| ->]; [exact H|]. destruct HX; discriminate. Qed.
Lemma nfc_split : forall a i b, boring i -> nfc (a ++ i :: b) = nfc a ++ i :: nfc b.
Proof. intros a i b H. apply nfc_app_inert. exact (b_inert _ H). Qed.
Lemma ss_conv_split : forall a i b, boring i -> nfc (stream_safe (a ++ i :: b)) = nfc (stream_safe a) ++ i :: nfc (stream_safe b).
Proof. intros a i b H. rewrite stream_safe_split by exact H. now apply nfc_split. Qed.
Lemma ss_conv_nonnil : forall s, s <> [] -> nfc (stream_safe s) <> [].
Proof. intros s H. apply nfc_nonnil. destruct s as [|c s]; [congruence|]. unfold stream_safe. cbn [stream_safe_go]. destruct (Nat.ltb _ _); discriminate. Qed.
Lemma nfc_ss_fix : forall s, nfc_ss s <-> nfc (stream_safe s) = s.
Proof. intro s. split; [intros [H1 H2]; now rewrite H2, H1|]. intro H. rewrite <- H. apply nfc_ss_conv. Qed.

Lemma nfc_part : forall a b, nfc (a ++ b) = a ++ b -> nfc a = a /\ nfc b = b.
Proof. intros a b H. split; [now apply (nfc_prefix a b)|now apply (nfc_suffix a b)]. Qed.
Lemma ss_conv_idem : forall s, nfc (stream_safe (nfc (stream_safe s))) = nfc (stream_safe s).
Proof. intro s. apply nfc_ss_fix. apply nfc_ss_conv. Qed.
Lemma ss_conv_part : forall a b, nfc (stream_safe (a ++ b)) = a ++ b -> nfc (stream_safe a) = a /\ nfc (stream_safe b) = b.
Proof. intros a b H. apply nfc_ss_fix in H. apply nfc_ss_app in H. split; apply nfc_ss_fix; tauto. Qed.
Theorem nfc_cat_text : forall s, nfc_cat s = nfc (terminated (unix s)).
Proof. intro s. unfold nfc_cat. apply (cat_spec nfc nfc_nil nfc_split nfc_nonnil nfc_in nfc_idem nfc_part nfc_line nfc_line_eq). lia. Qed.
Theorem ssnfc_cat_text : forall s, ssnfc_cat s = nfc (stream_safe (terminated (unix s))).
Proof. intro s. unfold ssnfc_cat. apply (cat_spec (fun s => nfc (stream_safe s)) nfc_nil ss_conv_split ss_conv_nonnil ss_conv_in ss_conv_idem ss_conv_part ssnfc_line ssnfc_line_eq). lia. Qed.
Theorem nfc_cat_idem : forall s, nfc_cat (nfc_cat s) = nfc_cat s <-> ~ ((exists a b, s = a ++ 0xD :: 0xD :: 0xA :: b) \/ exists a, s = a ++ [0xD]).
Proof. intro s. rewrite !nfc_cat_text. apply (run_idem nfc nfc_nil nfc_split nfc_nonnil nfc_in nfc_idem nfc_part). Qed.
Theorem ssnfc_cat_idem : forall s, ssnfc_cat (ssnfc_cat s) = ssnfc_cat s <-> ~ ((exists a b, s = a ++ 0xD :: 0xD :: 0xA :: b) \/ exists a, s = a ++ [0xD]).
Proof. intro s. rewrite !ssnfc_cat_text. apply (run_idem (fun s => nfc (stream_safe s)) nfc_nil ss_conv_split ss_conv_nonnil ss_conv_in ss_conv_idem ss_conv_part). Qed.
Theorem nfc_cat_twice : forall s, nfc_cat (nfc_cat s) = unix (nfc_cat s).
Proof. intro s. rewrite !nfc_cat_text. apply (run_twice nfc nfc_nil nfc_split nfc_nonnil nfc_in nfc_idem nfc_part). Qed.
Theorem ssnfc_cat_twice : forall s, ssnfc_cat (ssnfc_cat s) = unix (ssnfc_cat s).
Proof. intro s. rewrite !ssnfc_cat_text. apply (run_twice (fun s => nfc (stream_safe s)) nfc_nil ss_conv_split ss_conv_nonnil ss_conv_in ss_conv_idem ss_conv_part). Qed.

(** * text-cat *)
Lemma cat_trace : forall fuel i sc blen out ok out', wf i -> text_cat fuel i sc blen out = Some (ok, out') ->
  exists k rs j rest, reads i sc (repeat blen k) = (rs, j, rest) /\ out' = out ++ encode_all (received rs) /\
    exists rs' r cs, rs = rs' ++ [(r, cs)] /\ if ok then r = ROk 0 End else r = RErr \/ r = RInvalid.
Proof.
  induction fuel as [|f IH]; intros i sc blen out ok out' W H; cbn [text_cat] in H; [discriminate|].
  destruct (read i sc blen) as [[[r cs] i1] sc1] eqn:ER. pose proof (read_wf _ _ _ _ _ _ _ W ER) as W1.
  assert (CONT : forall o1, text_cat f i1 sc1 blen o1 = Some (ok, out') -> o1 = out ++ encode_all (received [(r, cs)]) ->
    exists k rs j rest, reads i sc (repeat blen k) = (rs, j, rest) /\ out' = out ++ encode_all (received rs) /\
    exists rs' r cs, rs = rs' ++ [(r, cs)] /\ if ok then r = ROk 0 End else r = RErr \/ r = RInvalid).
  { intros o1 HC ->. destruct (IH _ _ _ _ _ _ W1 HC) as (k & rs & j & rest & R & E & rs' & r' & cs' & -> & L). exists (S k), ((r, cs) :: rs' ++ [(r', cs')]), j, rest.
    cbn [repeat reads]. rewrite ER, R. split; [reflexivity|]. split; [|exists ((r, cs) :: rs'), r', cs'; auto]. rewrite E, <- app_assoc. f_equal.
    change ((r, cs) :: rs' ++ [(r', cs')]) with ([(r, cs)] ++ rs' ++ [(r', cs')]). unfold received. rewrite (flat_map_app _ [(r, cs)]). unfold encode_all. rewrite (flat_map_app encode). reflexivity. }
  assert (STOP : forall b, (ok, out') = (b, out) -> received [(r, cs)] = [] -> (if b then r = ROk 0 End else r = RErr \/ r = RInvalid) ->
    exists k rs j rest, reads i sc (repeat blen k) = (rs, j, rest) /\ out' = out ++ encode_all (received rs) /\
    exists rs' r cs, rs = rs' ++ [(r, cs)] /\ if ok then r = ROk 0 End else r = RErr \/ r = RInvalid).
  { intros b E HR L. injection E as -> ->. exists 1%nat, [(r, cs)], i1, sc1. cbn [repeat reads]. rewrite ER, HR. split; [reflexivity|]. split; [now rewrite app_nil_r|]. exists [], r, cs. auto. }
  destruct r as [[|n] s| |]; cbn [std_result] in H.
  - assert (cs = []) by (apply str_len_zero; symmetry; exact (read_count _ _ _ _ _ _ _ _ W ER)). subst cs.
    destruct s; [apply (CONT _ H); now rewrite app_nil_r|apply (CONT _ H); now rewrite app_nil_r|]. injection H as <- <-. apply (STOP true); reflexivity.
  - apply (CONT (out ++ encode_all cs)); [destruct s; exact H|]. cbn [received flat_map fst snd]. now rewrite app_nil_r.
  - injection H as <- <-. apply (STOP false); auto.
  - injection H as <- <-. apply (STOP false); auto.
Qed.
Lemma cat_total : forall fuel i sc blen out D, wf i -> ainv D (abs_of i) -> (NORMALIZATION_BUFFER_SIZE <= blen)%nat -> (measure i sc < fuel)%nat ->
  text_cat fuel i sc blen out <> None.
Proof.
  induction fuel as [|f IH]; intros i sc blen out D W I B M; [lia|]. cbn [text_cat].
  destruct (read i sc blen) as [[[r cs] i1] sc1] eqn:ER. pose proof (read_wf _ _ _ _ _ _ _ W ER) as W1.
  destruct (read_progress0 _ _ _ _ _ _ _ _ W I B ER) as [[D' I'] [->|P]]; [discriminate|].
  destruct r as [[|n] s| |]; cbn [std_result]; try discriminate.
  - destruct s; [apply (IH _ _ _ _ D')|apply (IH _ _ _ _ D')|discriminate]; auto; lia.
  - destruct s; apply (IH _ _ _ _ D'); auto; lia.
Qed.
Theorem text_cat_copies : forall nel lsps script blen, (136 <= blen)%nat -> exists n, forall fuel, (n <= fuel)%nat ->
  exists k rs j rest ok, reads (new_input nel lsps) script (repeat blen k) = (rs, j, rest) /\
    text_cat fuel (new_input nel lsps) script blen [] = Some (ok, encode_all (received rs)) /\
    (ok = true -> reached_end rs) /\ (no_fail script -> ok = true /\ string_ok (received rs) /\ line_terminated (received rs)).
Proof.
  intros nel lsps script blen B. exists (S (measure (new_input nel lsps) script)). intros fuel HF.
  destruct (text_cat fuel (new_input nel lsps) script blen []) as [[ok out]|] eqn:EC.
  2:{ exfalso. refine (cat_total fuel _ _ blen [] [] (wf_new nel lsps) (new_ainv nel lsps) _ _ EC); [exact B|lia]. }
  destruct (cat_trace _ _ _ _ _ _ _ (wf_new nel lsps) EC) as (k & rs & j & rest & R & -> & rs' & r & cs & E & L). exists k, rs, j, rest, ok. split; [exact R|]. split; [reflexivity|].
  assert (RE : ok = true -> reached_end rs) by (intros ->; subst r; exists rs', 0%nat, cs; exact E). split; [exact RE|].
  intro NF. pose proof (reads_valid _ _ _ _ _ _ (wf_new nel lsps) NF (legal_repeat blen k B) R) as RV.
  assert (OK : ok = true).
  { destruct ok; [reflexivity|exfalso]. rewrite E in RV. apply Forall_app in RV. destruct RV as [_ RV]. inversion RV as [|? ? RV' _]; subst. cbn in RV'. tauto. }
  split; [exact OK|]. exact (session_is_text _ _ _ _ _ _ _ R NF (RE OK)).
Qed.
