(** The conversion chain isolate / CJK variants / Stream-Safe / NFC. *)
From Coq Require Import NArith Arith List Bool Lia ZifyBool ZifyNat ZifyN.
From Verif Require Import Base Ucd Norm Chars TextTables TextUtils UcdFacts NormFacts CharFacts SpecText TextFacts.
Import ListNotations.
Local Open Scope N_scope.
Arguments N.add : simpl never.
Arguments N.leb : simpl never.
Arguments N.ltb : simpl never.
Arguments N.eqb : simpl never.

Notation all_clean := (Forall (fun c => clean c = true)).

(** * Cleanness *)
Lemma rc_clean : forall s k buf l, all_clean s -> all_clean buf -> clean k = true -> all_clean (rc k buf l s).
Proof.
  induction s as [|ch t IH]; intros k buf l HS HB HK; cbn [rc]; [now constructor|].
  inversion HS as [|? ? H1 H2]; subst.
  assert (HB' : all_clean (buf ++ [ch])) by (apply Forall_app; auto).
  destruct l as [lc|].
  - destruct (ccc ch <=? lc).
    + destruct (ccc ch =? 0); [|now apply IH]. constructor; [exact HK|]. apply Forall_app. split; [exact HB|]. apply IH; auto.
    + destruct (compose k ch) as [r|] eqn:E; apply IH; auto. exact (compose_clean _ _ _ E).
  - destruct (compose k ch) as [r|] eqn:E; [apply IH; auto; exact (compose_clean _ _ _ E)|].
    destruct (ccc ch =? 0); [constructor; auto|]; apply IH; auto.
Qed.

Lemma recomp_clean : forall s, all_clean s -> all_clean (recomp s).
Proof.
  induction 1 as [|c t Hc HF IH]; cbn [recomp]; [constructor|].
  destruct (ccc c =? 0); [apply rc_clean; auto|constructor; auto].
Qed.

Lemma nfc_clean : forall s, all_clean (flat_map cd s) -> all_clean (nfc s).
Proof.
  intros s H. unfold nfc. apply recomp_clean. unfold nfd. apply Forall_forall. intros x HX.
  rewrite in_order in HX. rewrite Forall_forall in H. now apply H.
Qed.

Lemma ss_in : forall s n x, In x (stream_safe_go n s) -> In x s \/ x = CGJ.
Proof.
  induction s as [|c s IH]; intros n x H; cbn [stream_safe_go] in H; [destruct H|].
  destruct (Nat.ltb _ _); cbn in H; cbn.
  - destruct H as [H|[H|H]]; auto. apply IH in H. tauto.
  - destruct H as [H|H]; auto. apply IH in H. tauto.
Qed.

Lemma iso_in : forall s n h x, In x (isolate_go n h s) -> In x s \/ x = CGJ.
Proof.
  induction s as [|c s IH]; intros n h x H; cbn [isolate_go] in H.
  - destruct n; cbn in H; intuition.
  - destruct (_ || _); cbn in H; cbn.
    + destruct H as [H|[H|H]]; auto. apply IH in H. tauto.
    + destruct H as [H|H]; auto. apply IH in H. tauto.
Qed.

Definition conv (s : list N) : list N := nfc (stream_safe (cjk_compat_variants s)).
Lemma pipeline_conv : forall s, pipeline s = conv (isolate_unassigned s).
Proof. reflexivity. Qed.

Lemma conv_clean : forall s, Forall (fun c => goodb c = true) s -> all_clean (conv s).
Proof.
  intros s H. apply nfc_clean. apply Forall_forall. intros z HZ. apply in_flat_map in HZ. destruct HZ as (y & HY & HZ).
  unfold stream_safe in HY. apply ss_in in HY. destruct HY as [HY| ->].
  - unfold cjk_compat_variants in HY. apply in_flat_map in HY. destruct HY as (x & HX & HY).
    rewrite Forall_forall in H. eapply good_spec; eauto.
  - destruct (b_inert _ boring_CGJ) as (_ & F & _). rewrite F in HZ. destruct HZ as [<-|[]]. exact clean_CGJ.
Qed.

Lemma pipeline_clean : forall s, Forall (fun c => goodb c = true) s -> all_clean (pipeline s).
Proof.
  intros s H. rewrite pipeline_conv. apply conv_clean. apply Forall_forall. intros x HX.
  unfold isolate_unassigned in HX. apply iso_in in HX. destruct HX as [HX| ->]; [rewrite Forall_forall in H; auto|].
  apply clean_good. exact clean_CGJ.
Qed.

(** * Splitting at characters that never interact *)
Lemma cjk_app : forall a b, cjk_compat_variants (a ++ b) = cjk_compat_variants a ++ cjk_compat_variants b.
Proof. intros. apply flat_map_app. Qed.
Lemma cjk_cons_boring : forall i b, boring i -> cjk_compat_variants (i :: b) = i :: cjk_compat_variants b.
Proof. intros i b H. unfold cjk_compat_variants. cbn [flat_map]. rewrite (b_cjk _ H). reflexivity. Qed.

Lemma boring_leading : forall i, boring i -> cl_leading i = 0%nat /\ forall n, count_next n i = 0%nat.
Proof.
  intros i H. split.
  - rewrite cl_leading_eq. pose proof (b_pat _ H) as P. unfold pat in P. destruct (kd i) as [|x l]; [discriminate|].
    cbn in P. injection P as P _. cbn. now rewrite P.
  - intro n. rewrite count_next_run, (b_pat _ H). reflexivity.
Qed.

Lemma ss_go_split : forall a n i b, boring i -> (n <= 30)%nat ->
  stream_safe_go n (a ++ i :: b) = stream_safe_go n a ++ i :: stream_safe_go 0 b.
Proof.
  induction a as [|c a IH]; intros n i b H Hn.
  - cbn [app stream_safe_go]. destruct (boring_leading _ H) as [E1 E2]. rewrite E1, !E2. unfold MAX_NONSTARTERS.
    assert (Nat.ltb 30 (n + 0) = false) as -> by (apply Nat.ltb_ge; lia). reflexivity.
  - cbn [app stream_safe_go]. unfold MAX_NONSTARTERS. destruct (Nat.ltb 30 (n + cl_leading c)) eqn:E.
    + rewrite IH; [reflexivity|exact H|]. apply next_le; [lia|]. pose proof (cl_leading_le c). apply Nat.leb_le. lia.
    + rewrite IH; [reflexivity|exact H|]. apply next_le; [lia|]. apply Nat.leb_le. apply Nat.ltb_ge in E. lia.
Qed.
Lemma stream_safe_split : forall a i b, boring i -> stream_safe (a ++ i :: b) = stream_safe a ++ i :: stream_safe b.
Proof. intros. unfold stream_safe. apply ss_go_split; [assumption|lia]. Qed.

Lemma conv_split : forall a i b, boring i -> conv (a ++ i :: b) = conv a ++ i :: conv b.
Proof.
  intros a i b H. unfold conv. rewrite cjk_app, cjk_cons_boring, stream_safe_split by exact H.
  apply nfc_app_inert. exact (b_inert _ H).
Qed.
Lemma conv_nil : conv [] = [].
Proof. unfold conv. cbn. exact nfc_nil. Qed.
Lemma conv_snoc : forall a i, boring i -> conv (a ++ [i]) = conv a ++ [i].
Proof. intros a i H. rewrite conv_split by exact H. now rewrite conv_nil. Qed.
Lemma conv_cons : forall i b, boring i -> conv (i :: b) = i :: conv b.
Proof. intros i b H. pose proof (conv_split [] i b H) as E. rewrite conv_nil in E. exact E. Qed.

Lemma conv_nfc_ss : forall s, nfc_ss (conv s).
Proof. intro s. apply nfc_ss_conv. Qed.

Lemma nfc_ss_split : forall a i b, boring i -> nfc_ss a -> nfc_ss b -> nfc_ss (a ++ i :: b).
Proof.
  intros a i b H [A1 A2] [B1 B2]. split.
  - rewrite nfc_app_inert by exact (b_inert _ H). now rewrite A1, B1.
  - rewrite stream_safe_split by exact H. now rewrite A2, B2.
Qed.
Lemma nfc_ss_nil : nfc_ss [].
Proof. split; [exact nfc_nil|reflexivity]. Qed.
Lemma nfc_ss_join : forall a i b, boring i -> nfc_ss (a ++ [i]) -> nfc_ss b -> nfc_ss ((a ++ [i]) ++ b).
Proof. intros a i b H HA HB. rewrite <- app_assoc. apply nfc_ss_split; auto. apply nfc_ss_app in HA. tauto. Qed.

(** * isolate_unassigned *)
(** what is emitted up to and including [i], then the rest *)
Lemma iso_split : forall a n h i b, is_assigned i = true ->
  isolate_go n h (a ++ i :: b) = isolate_go n h (a ++ [i]) ++ isolate_go false (i =? CGJ) b.
Proof.
  induction a as [|c a IH]; intros n h i b H.
  - cbn [app isolate_go]. rewrite H. cbn [negb andb orb].
    destruct n; cbn [andb orb negb].
    + destruct (i =? CGJ) eqn:E; reflexivity.
    + reflexivity.
  - cbn [app isolate_go]. destruct (_ || _); cbn [app]; now rewrite IH.
Qed.

Lemma iso_have : forall b, (forall c t, b = c :: t -> is_assigned c = true) -> isolate_go false true b = isolate_go false false b.
Proof.
  intros [|c t] H; [reflexivity|]. cbn [isolate_go]. rewrite (H c t eq_refl). reflexivity.
Qed.

(** at a line end the two sides are independent *)
Lemma iso_LF : forall a n h b, isolate_go n h (a ++ LF :: b) = isolate_go n h a ++ LF :: isolate_go false false b.
Proof.
  induction a as [|c a IH]; intros n h b.
  - cbn [app isolate_go]. rewrite assigned_LF. destruct n; reflexivity.
  - cbn [app isolate_go]. destruct (_ || _); cbn [app]; now rewrite IH.
Qed.

Lemma iso_snoc : forall a n h i, is_assigned i = true -> exists x, isolate_go n h (a ++ [i]) = x ++ [i].
Proof.
  induction a as [|c a IH]; intros n h i H.
  - cbn [app isolate_go]. rewrite H. cbn [negb andb]. destruct n; cbn [andb orb negb].
    + destruct (i =? CGJ); cbn; [exists []; reflexivity|exists [CGJ]; reflexivity].
    + exists []. reflexivity.
  - cbn [app isolate_go]. destruct (_ || _).
    + destruct (IH (negb (is_assigned c)) false i H) as [x ->]. exists (CGJ :: c :: x). reflexivity.
    + destruct (IH false (c =? CGJ) i H) as [x ->]. exists (c :: x). reflexivity.
Qed.

(** * The pipeline on blocks *)
Definition boundary (i : N) : Prop := i = LF \/ i = CGJ.
Lemma boundary_boring : forall i, boundary i -> boring i.
Proof. intros i [-> | ->]; [exact boring_LF|exact boring_CGJ]. Qed.
Lemma boundary_assigned : forall i, boundary i -> is_assigned i = true.
Proof. intros i [-> | ->]; [exact assigned_LF|exact assigned_CGJ]. Qed.

Lemma pipeline_LF : forall a b, pipeline (a ++ LF :: b) = pipeline a ++ LF :: pipeline b.
Proof.
  intros a b. rewrite !pipeline_conv. unfold isolate_unassigned. rewrite iso_LF.
  apply conv_split. exact boring_LF.
Qed.

Definition hd_assigned (b : list N) : Prop := forall c t, b = c :: t -> is_assigned c = true.

Lemma pipeline_join : forall a i b, boundary i -> (i = CGJ -> hd_assigned b) ->
  pipeline ((a ++ [i]) ++ b) = pipeline (a ++ [i]) ++ pipeline b.
Proof.
  intros a i b H HB. rewrite !pipeline_conv, <- app_assoc. cbn [app]. unfold isolate_unassigned.
  rewrite iso_split by now apply boundary_assigned.
  destruct (iso_snoc a false false i (boundary_assigned _ H)) as [x ->].
  assert (E : isolate_go false (i =? CGJ) b = isolate_go false false b).
  { destruct H as [-> | ->]; [reflexivity|]. apply iso_have. exact (HB eq_refl). }
  rewrite E, <- app_assoc. cbn [app]. rewrite conv_split, conv_snoc by now apply boundary_boring.
  rewrite <- app_assoc. reflexivity.
Qed.

Lemma pipeline_end : forall a i, boundary i -> exists x, pipeline (a ++ [i]) = x ++ [i].
Proof.
  intros a i H. rewrite pipeline_conv. unfold isolate_unassigned.
  destruct (iso_snoc a false false i (boundary_assigned _ H)) as [x ->].
  rewrite conv_snoc by now apply boundary_boring. eauto.
Qed.
Lemma pipeline_nil : pipeline [] = [].
Proof. rewrite pipeline_conv. apply conv_nil. Qed.
Lemma pipeline_nfc_ss : forall s, nfc_ss (pipeline s).
Proof. intro s. rewrite pipeline_conv. apply conv_nfc_ss. Qed.

(** * Fixed points *)
Lemma iso_assigned : forall s h, Forall (fun c => is_assigned c = true) s -> isolate_go false h s = s.
Proof.
  intros s h H. revert h. induction H as [|c s Hc H IH]; intro h; [reflexivity|].
  cbn [isolate_go]. rewrite Hc. cbn. now rewrite IH.
Qed.

(** every unassigned character directly follows a U+34F; [h]: the previous character is U+34F *)
Fixpoint prec_ok (h : bool) (s : list N) : bool :=
  match s with
  | [] => true
  | c :: t => (is_assigned c || h) && prec_ok (c =? CGJ) t
  end.

Lemma unassigned_not_CGJ : forall c, is_assigned c = false -> c =? CGJ = false.
Proof. intros c H. apply not_true_is_false. intro E. apply N.eqb_eq in E. subst. rewrite assigned_CGJ in H. discriminate. Qed.

Lemma iso_fix : forall s h, prec_ok h s = true -> isolate_go false h s = s.
Proof.
  induction s as [|c s IH]; intros h H; [reflexivity|]. cbn [isolate_go prec_ok] in *.
  apply andb_prop in H. destruct H as [H1 H2].
  destruct (is_assigned c) eqn:A; destruct h; cbn in *; try discriminate; now rewrite IH.
Qed.
Lemma iso_length : forall s n h, (length s <= length (isolate_go n h s))%nat.
Proof. induction s as [|c s IH]; intros n h; cbn [isolate_go]; [cbn; lia|]. destruct (_ || _); cbn; [specialize (IH (negb (is_assigned c)) false)|specialize (IH false (c =? CGJ))]; lia. Qed.
Lemma iso_fix_inv : forall s h, isolate_go false h s = s -> prec_ok h s = true.
Proof.
  induction s as [|c s IH]; intros h H; [reflexivity|]. cbn [isolate_go prec_ok] in *. cbn [andb orb] in H.
  destruct (negb (is_assigned c) && negb h) eqn:E.
  - exfalso. apply (f_equal (@length N)) in H. cbn in H. pose proof (iso_length s (negb (is_assigned c)) false). lia.
  - injection H as H. rewrite (IH _ H). lia.
Qed.

Lemma iso_prec : forall s n h, prec_ok (h && negb n) (isolate_go n h s) = true.
Proof.
  induction s as [|c s IH]; intros n h; cbn [isolate_go].
  - destruct n; cbn; [rewrite assigned_CGJ; reflexivity|reflexivity].
  - destruct ((n && negb (c =? CGJ)) || (negb (is_assigned c) && negb h)) eqn:E.
    + cbn [prec_ok]. rewrite assigned_CGJ. cbn [orb]. rewrite N.eqb_refl, orb_true_r. cbn [andb].
      specialize (IH (negb (is_assigned c)) false). cbn [andb] in IH.
      assert (c =? CGJ = false) as -> by (destruct (is_assigned c) eqn:A; [lia|now apply unassigned_not_CGJ]). exact IH.
    + cbn [prec_ok]. specialize (IH false (c =? CGJ)). rewrite andb_true_r in IH. rewrite IH.
      destruct (is_assigned c) eqn:A; [reflexivity|]. pose proof (unassigned_not_CGJ c A). lia.
Qed.

Lemma iso_idem : forall s, isolate_unassigned (isolate_unassigned s) = isolate_unassigned s.
Proof. intro s. unfold isolate_unassigned. apply iso_fix. exact (iso_prec s false false). Qed.

Lemma prec_ok_split : forall a h c b, prec_ok h (a ++ c :: b) = true -> is_assigned c = false ->
  (a = [] /\ h = true) \/ exists a', a = a' ++ [CGJ].
Proof.
  induction a as [|x a IH]; intros h c b H HC; cbn [app prec_ok] in H.
  - rewrite HC in H. left. split; [reflexivity|]. destruct h; [reflexivity|discriminate].
  - apply andb_prop in H. destruct H as [_ H]. destruct (IH _ _ _ H HC) as [[-> E]|[a' ->]].
    + right. exists []. apply N.eqb_eq in E. now subst.
    + right. exists (x :: a'). reflexivity.
Qed.
Lemma prec_ok_spec : forall s, prec_ok false s = true <-> preceded s.
Proof.
  intro s. unfold preceded. split.
  - intros H a c b -> HC. destruct (prec_ok_split _ _ _ _ H HC) as [[_ E]|E]; [discriminate|exact E].
  - intro H. assert (G : forall t p, s = p ++ t -> prec_ok (match last_opt p with Some x => x =? CGJ | None => false end) t = true).
    { induction t as [|c t IH]; intros p E; [reflexivity|]. cbn [prec_ok]. apply andb_true_intro. split.
      - destruct (is_assigned c) eqn:A; [reflexivity|]. destruct (H _ _ _ E A) as [p' ->]. rewrite last_opt_snoc. reflexivity.
      - specialize (IH (p ++ [c])). rewrite last_opt_snoc in IH. apply IH. rewrite <- app_assoc. exact E. }
    exact (G s [] eq_refl).
Qed.

Lemma cjk_clean_id : forall s, all_clean s -> cjk_compat_variants s = s.
Proof. unfold cjk_compat_variants. induction 1 as [|c s H HF IH]; [reflexivity|]. cbn [flat_map]. rewrite clean_cjk by exact H. cbn. now rewrite IH. Qed.

Theorem pipeline_fix : forall s, all_clean s -> nfc_ss s -> prec_ok false s = true -> pipeline s = s.
Proof.
  intros s H1 [H2 H3] H4. unfold pipeline, isolate_unassigned. rewrite iso_fix by exact H4.
  rewrite cjk_clean_id, H3 by exact H1. exact H2.
Qed.

(** * The quick path *)
Transparent ccc cd kd compose qc_nfc is_public_assigned cjk_variant.
Lemma chk_cjk_no : tall (fun (c : N) (d : N * N) => match qc_nfc c with No => true | _ => false end) trie_cjk = true.
Proof. vm_compute. reflexivity. Qed.
Lemma cjk_notno : forall c, notno c -> cjk1 c = [c].
Proof.
  intros c H. unfold cjk1. destruct (c <=? 127); [reflexivity|]. unfold cjk_variant.
  destruct (nfind c trie_cjk) as [[b v]|] eqn:E; [|reflexivity].
  apply (tall_spec _ _ _ _ _ chk_cjk_no) in E. unfold notno in H. destruct (qc_nfc c); congruence.
Qed.
Global Opaque ccc cd kd compose qc_nfc is_public_assigned cjk_variant.

Lemma public_assigned : forall s, forallb is_public_assigned s = true -> Forall (fun c => is_assigned c = true) s.
Proof. intros s H. apply Forall_forall. intros c HC. rewrite forallb_forall in H. unfold is_assigned. rewrite H by exact HC. reflexivity. Qed.

Theorem pipeline_quick : forall s, is_nfc_stream_safe_quick s = Yes -> forallb is_public_assigned s = true -> pipeline s = s.
Proof.
  intros s H1 H2. unfold is_nfc_stream_safe_quick in H1.
  destruct (quick_sound s 0 0 Yes) as (O & _ & S & F & Y); [lia|congruence|]. destruct (Y H1) as [Y1 _].
  unfold pipeline, isolate_unassigned. rewrite iso_assigned by now apply public_assigned.
  assert (C : cjk_compat_variants s = s).
  { unfold cjk_compat_variants. clear - F. induction F as [|c s H HF IH]; [reflexivity|]. cbn [flat_map]. rewrite cjk_notno by exact H. cbn. now rewrite IH. }
  rewrite C. assert (SS : stream_safe s = s) by (unfold stream_safe; now apply ss_go_fix). rewrite SS. now apply nfc_yes.
Qed.

(** * First character *)
Definition hstart (s : list N) : Prop := opt_all is_basic_text_start (head_opt s) = true.

Lemma rc_start : forall s k buf l, is_basic_text_start k = true -> hstart (rc k buf l s).
Proof.
  induction s as [|ch t IH]; intros k buf l H; cbn [rc]; [exact H|].
  destruct l as [lc|].
  - destruct (ccc ch <=? lc).
    + destruct (ccc ch =? 0); [exact H|now apply IH].
    + destruct (compose k ch) as [r|] eqn:E; apply IH; [exact (start_compose _ _ _ H E)|exact H].
  - destruct (compose k ch) as [r|] eqn:E; [apply IH; exact (start_compose _ _ _ H E)|].
    destruct (ccc ch =? 0); [exact H|now apply IH].
Qed.

Lemma nfc_start : forall s, hstart s -> hstart (nfc s).
Proof.
  intros [|c s] H; [rewrite nfc_nil; exact H|]. cbn in H. pose proof (start_cdh _ H) as HS.
  pose proof (start_ccc _ HS) as HC. destruct (nfd_cons_hd c s HC) as [u E]. unfold nfc. rewrite E, recomp_starter by exact HC.
  now apply rc_start.
Qed.
Lemma ss_start : forall s, hstart s -> hstart (stream_safe s).
Proof.
  intros [|c s] H; [exact H|]. unfold stream_safe. cbn [stream_safe_go]. destruct (Nat.ltb _ _); [exact start_CGJ|exact H].
Qed.
Lemma cjk_start : forall s, hstart s -> hstart (cjk_compat_variants s).
Proof.
  intros [|c s] H; [exact H|]. unfold cjk_compat_variants. cbn [flat_map]. apply start_cjk in H.
  unfold cjk1 in *. destruct (c <=? 127); [exact H|]. destruct (cjk_variant c) as [[b v]|]; exact H.
Qed.
Lemma conv_start : forall s, hstart s -> hstart (conv s).
Proof. intros s H. apply nfc_start, ss_start, cjk_start, H. Qed.
Lemma pipeline_start : forall s, hstart s -> hstart (pipeline s).
Proof.
  intros s H. rewrite pipeline_conv. apply conv_start. destruct s as [|c s]; [exact H|].
  unfold isolate_unassigned. cbn [isolate_go]. destruct (_ || _); [exact start_CGJ|exact H].
Qed.
Lemma pipeline_nonnil : forall s, s <> [] -> pipeline s <> [].
Proof.
  intros s H. rewrite pipeline_conv. apply nfc_nonnil. destruct s as [|c s]; [congruence|].
  unfold isolate_unassigned. cbn [isolate_go].
  destruct (_ || _); unfold cjk_compat_variants; cbn [flat_map].
  - rewrite (b_cjk _ boring_CGJ). cbn [app]. unfold stream_safe. cbn [stream_safe_go]. destruct (Nat.ltb _ _); discriminate.
  - assert (exists x t, cjk1 c = x :: t) as (x & t & ->).
    { unfold cjk1. destruct (c <=? 127); [eauto|]. destruct (cjk_variant c) as [[? ?]|]; eauto. }
    cbn [app]. unfold stream_safe. cbn [stream_safe_go]. destruct (Nat.ltb _ _); discriminate.
Qed.
