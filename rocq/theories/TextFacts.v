(** The checks of the code against the specification in SpecText.v. *)
From Coq Require Import NArith Arith List Bool Lia ZifyBool ZifyNat ZifyN.
From Verif Require Import Base Ucd Norm Chars TextTables TextUtils UcdFacts NormFacts CharFacts DocTable SpecText.
Import ListNotations.
Local Open Scope N_scope.
Arguments N.add : simpl never.
Arguments N.leb : simpl never.
Arguments N.ltb : simpl never.
Arguments N.eqb : simpl never.

(** * Forbidden characters *)
Definition doc_ranges : list (N * N) := (0xC, 0xC) :: (0x1B, 0x1B) :: map fst doc_rows.

Lemma doc_lookup_ranges : forall c, doc_lookup c = None <-> in_ranges c doc_ranges = false.
Proof.
  intro c. unfold doc_lookup, doc_ranges, in_ranges. cbn [existsb fst snd]. rewrite !in_range_single.
  destruct (c =? 12); [cbn; intuition discriminate|]. destruct (c =? 27); [cbn; intuition discriminate|]. cbn [orb].
  generalize doc_rows. intro l. induction l as [|r l IH]; cbn; [tauto|].
  destruct (in_range c (fst (fst r)) (snd (fst r))); cbn; [intuition discriminate|exact IH].
Qed.

Lemma chk_doc_bad : subset doc_ranges tbl_bad = true.
Proof. vm_compute. reflexivity. Qed.
Lemma chk_bad_doc : subset tbl_bad doc_ranges = true.
Proof. vm_compute. reflexivity. Qed.

Lemma allowed_clean : forall c, allowed c <-> clean c = true.
Proof.
  intro c. unfold allowed. rewrite doc_lookup_ranges, clean_bad, negb_true_iff.
  split; intro H; apply not_true_is_false; intro E.
  - apply (subset_spec _ _ _ chk_bad_doc) in E. congruence.
  - apply (subset_spec _ _ _ chk_doc_bad) in E. congruence.
Qed.

Lemma Forall_allowed_clean : forall s, Forall allowed s <-> Forall (fun c => clean c = true) s.
Proof. intro s. split; apply Forall_impl; intros c; apply allowed_clean. Qed.

(** * Stream-Safe *)
Lemma runs_ok_run : forall bs n, runs_ok n bs = true -> (n <= 30)%nat ->
  forall a k b, bs = a ++ repeat true k ++ b -> (k <= 30)%nat.
Proof.
  intros bs n H Hn a k b ->. rewrite runs_ok_app in H. apply andb_prop in H. destruct H as [H1 H2].
  rewrite runs_ok_app in H2. apply andb_prop in H2. destruct H2 as [H2 _].
  rewrite runs_ok_true in H2 by (apply run_end_le; assumption). lia.
Qed.

Lemma runs_ok_intro : forall bs n, (forall a k b, repeat true n ++ bs = a ++ repeat true k ++ b -> (k <= 30)%nat) -> runs_ok n bs = true.
Proof.
  induction bs as [|b bs IH]; intros n H; [reflexivity|]. cbn [runs_ok]. destruct b.
  - apply andb_true_intro. split.
    + specialize (H [] (S n) bs). cbn [app] in H. apply Nat.leb_le. apply H.
      replace (S n) with (n + 1)%nat by lia. rewrite repeat_app, <- app_assoc. reflexivity.
    + apply IH. intros a k b E. apply (H a k b). rewrite <- E. replace (S n) with (n + 1)%nat by lia.
      rewrite repeat_app, <- app_assoc. reflexivity.
  - apply IH. intros a k b E. cbn [repeat app] in E. apply (H (repeat true n ++ false :: a) k b).
    rewrite E, <- app_assoc. reflexivity.
Qed.

Lemma map_repeat_inv : forall l k, map nonstarter l = repeat true k -> Forall (fun c => ccc c <> 0) l /\ length l = k.
Proof.
  intros l k H. split.
  - apply Forall_forall. intros c HI. assert (In (nonstarter c) (repeat true k)) by (rewrite <- H; now apply in_map).
    apply repeat_spec in H0. unfold nonstarter in H0. lia.
  - apply (f_equal (@length bool)) in H. now rewrite map_length, repeat_length in H.
Qed.
Lemma map_repeat : forall l, Forall (fun c => ccc c <> 0) l -> map nonstarter l = repeat true (length l).
Proof. induction 1 as [|c l H HF IH]; [reflexivity|]. cbn. rewrite IH. f_equal. unfold nonstarter. lia. Qed.

Lemma flat_pat : forall s, flat_map pat s = map nonstarter (flat_map kd s).
Proof. induction s as [|c s IH]; [reflexivity|]. cbn. rewrite map_app, IH. reflexivity. Qed.

Lemma stream_safe_spec : forall s, stream_safe s = s <-> stream_safe_text s.
Proof.
  intro s. rewrite ss_ok_iff, ss_ok_runs, flat_pat by lia. unfold stream_safe_text. split.
  - intros H a run b E HF. apply (runs_ok_run _ _ H) with (a := map nonstarter a) (b := map nonstarter b); [lia|].
    rewrite E, !map_app. now rewrite (map_repeat run HF).
  - intro H. apply runs_ok_intro. intros a k b E. cbn [repeat app] in E.
    symmetry in E. symmetry in E. apply map_eq_app in E. destruct E as (a' & r & E1 & E2 & E3).
    apply map_eq_app in E3. destruct E3 as (r' & b' & F1 & F2 & F3).
    apply map_repeat_inv in F2. destruct F2 as [F2 <-]. apply (H a' r' b'); [congruence|exact F2].
Qed.

(** * The two checks *)
Lemma substr_ok_iff : forall s, is_basic_text_substr s = true <-> Forall (fun c => clean c = true) s /\ nfc_ss s.
Proof. intro s. rewrite is_basic_text_substr_clean, is_nfc_stream_safe_spec. tauto. Qed.

Theorem substr_spec : forall s, is_basic_text_substr s = true <-> substring_ok s.
Proof.
  intro s. rewrite substr_ok_iff. unfold substring_ok, nfc_ss, nfc_text. rewrite stream_safe_spec, Forall_allowed_clean. tauto.
Qed.

Lemma last_opt_snoc : forall A (l : list A) x, last_opt (l ++ [x]) = Some x.
Proof. induction l as [|y l IH]; intro x; [reflexivity|]. cbn [app]. cbn [last_opt]. rewrite IH. destruct (l ++ [x]) eqn:E; [destruct l; discriminate|reflexivity]. Qed.
Lemma last_opt_some : forall A (l : list A) x, last_opt l = Some x <-> exists t, l = t ++ [x].
Proof.
  intros A l x. split.
  - destruct l as [|y l] using rev_ind; [discriminate|]. rewrite last_opt_snoc. intro H. injection H as ->. eauto.
  - intros [t ->]. apply last_opt_snoc.
Qed.
Lemma last_opt_none : forall A (l : list A), last_opt l = None <-> l = [].
Proof. intros A l. split; [|intros ->; reflexivity]. destruct l as [|y l] using rev_ind; [reflexivity|]. rewrite last_opt_snoc. discriminate. Qed.

Lemma starts_ok_iff : forall s, opt_all is_basic_text_start (head_opt s) = true <-> starts_ok s.
Proof.
  intros [|c s]; cbn; unfold starts_ok; split; auto; try discriminate.
  - intros H c' t E. injection E as <- <-. exact H.
  - intro H. exact (H c s eq_refl).
Qed.
Lemma ends_ok_iff : forall s, opt_all is_basic_text_end (last_opt s) = true <-> ends_ok s.
Proof.
  intros s. unfold ends_ok. destruct (last_opt s) eqn:E.
  - apply last_opt_some in E. destruct E as [t ->]. cbn. split.
    + intros H t' c' E. apply app_inj_tail in E. destruct E as [_ <-]. exact H.
    + intro H. exact (H t n eq_refl).
  - apply last_opt_none in E. subst. cbn. split; auto. intros _ t c E. destruct t; discriminate.
Qed.

Lemma basic_text_iff : forall s, is_basic_text s = true <->
  is_basic_text_substr s = true /\ opt_all is_basic_text_start (head_opt s) = true /\ opt_all is_basic_text_end (last_opt s) = true.
Proof.
  intro s. unfold is_basic_text. destruct (opt_all is_basic_text_start (head_opt s)); cbn; [|intuition discriminate].
  destruct (opt_all is_basic_text_end (last_opt s)); cbn; intuition discriminate.
Qed.

Theorem basic_text_spec : forall s, is_basic_text s = true <-> string_ok s.
Proof. intro s. rewrite basic_text_iff, substr_spec, starts_ok_iff, ends_ok_iff. reflexivity. Qed.

(** * Slices *)
Theorem substr_app : forall a b, is_basic_text_substr (a ++ b) = true -> is_basic_text_substr a = true /\ is_basic_text_substr b = true.
Proof.
  intros a b H. rewrite !substr_ok_iff in *. destruct H as [H1 H2]. apply Forall_app in H1. apply nfc_ss_app in H2. tauto.
Qed.

Theorem substr_slice : forall b s, slice_of b s -> is_basic_text_substr s = true -> is_basic_text_substr b = true.
Proof. intros b s (a & c & ->) H. apply substr_app in H. destruct H as [_ H]. apply substr_app in H. tauto. Qed.
