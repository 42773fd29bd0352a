(** Lemmas behind PropText.v: the character tables against the documented
    Sequence Table. *)
From Coq Require Import NArith Arith List Bool Lia ZifyBool ZifyNat ZifyN.
From Verif Require Import Base Ucd Norm Chars TextTables TextUtils UcdFacts NormFacts CharFacts DocTable SpecText TextFacts PipelineFacts.
Import ListNotations.
Local Open Scope N_scope.
Arguments N.add : simpl never.
Arguments N.leb : simpl never.
Arguments N.ltb : simpl never.
Arguments N.eqb : simpl never.

Lemma check_is_table : forall c, (check_basic_text_char c = None /\ c <> 0x1B) <-> doc_lookup c = None.
Proof.
  intro c. change (doc_lookup c = None) with (allowed c). rewrite allowed_clean. unfold clean, check_ok.
  destruct (check_basic_text_char c); [split; [intros [? _]; discriminate|discriminate]|].
  unfold ESC. destruct (N.eqb_spec c 0x1B); simpl; split; try tauto; try discriminate.
Qed.

Lemma replace_keeps_accepted : forall c, doc_lookup c = None -> replace c = [c].
Proof. intros c H. apply clean_replace. apply allowed_clean. exact H. Qed.

Lemma replace_removes_rejected : forall c, c <> 0x1B ->
  Forall (fun x => doc_lookup x = None) (nfc (cjk_compat_variants (replace c))).
Proof.
  intros c H. apply (Forall_allowed_clean). apply nfc_clean. apply Forall_forall. intros z HZ.
  apply in_flat_map in HZ. destruct HZ as (y & HY & HZ). unfold cjk_compat_variants in HY. apply in_flat_map in HY.
  destruct HY as (x & HX & HY). pose proof (replace_good c H) as G. rewrite Forall_forall in G. eapply good_spec; eauto.
Qed.

(** finite checks over the rows *)
Definition row_ok (c : N) : bool :=
  match doc_lookup c with
  | Some (Fixed r) => (c =? 0xD) || (c =? 0x1B) || (c =? 0xFB03) || list_eqb (nfc (replace c)) (nfc r)
  | Some Variant =>
      match nfc (cjk_compat_variants (replace c)) with
      | [b; v] => (in_range v 0xFE00 0xFE0F || in_range v 0xE0100 0xE01EF) && list_eqb (nfc [b]) [b] && list_eqb (nfc [c]) [b]
      | _ => false
      end
  | None => false
  end.
Lemma chk_rows : ranges_all row_ok doc_ranges = true.
Proof. vm_compute. reflexivity. Qed.

Lemma doc_lookup_row : forall c a, doc_lookup c = Some a -> row_ok c = true.
Proof.
  intros c a H. apply (ranges_all_spec _ _ _ chk_rows). destruct (in_ranges c doc_ranges) eqn:E; [reflexivity|].
  apply doc_lookup_ranges in E. congruence.
Qed.

Lemma replacement_as_documented : forall c r, doc_lookup c = Some (Fixed r) ->
  c <> 0xD -> c <> 0x1B -> c <> 0xFB03 -> nfc (replace c) = nfc r.
Proof.
  intros c r H H1 H2 H3. pose proof (doc_lookup_row _ _ H) as R. unfold row_ok in R. rewrite H in R.
  apply list_eqb_eq. destruct (list_eqb (nfc (replace c)) (nfc r)); [reflexivity|]. lia.
Qed.

Lemma replacement_FB03 : exists c r, doc_lookup c = Some (Fixed r) /\ c <> 0xD /\ c <> 0x1B /\ nfc (replace c) <> nfc r.
Proof.
  exists 0xFB03, [0x66; 0x66; 0x66]. repeat split; try (vm_compute; reflexivity); try (vm_compute; discriminate).
Qed.

Lemma variants_as_documented : forall c, doc_lookup c = Some Variant ->
  exists b v, nfc (cjk_compat_variants (replace c)) = [b; v]
    /\ (0xFE00 <= v <= 0xFE0F \/ 0xE0100 <= v <= 0xE01EF) /\ nfc [b] = [b] /\ nfc [c] = [b].
Proof.
  intros c H. pose proof (doc_lookup_row _ _ H) as R. unfold row_ok in R. rewrite H in R.
  destruct (nfc (cjk_compat_variants (replace c))) as [|b [|v [|]]]; try discriminate.
  apply andb_prop in R. destruct R as [R R2]. apply andb_prop in R. destruct R as [R R1].
  apply list_eqb_eq in R1, R2. exists b, v. repeat split; auto. unfold in_range in R. lia.
Qed.

Lemma conversion_accepted : forall s, is_nfc_stream_safe (nfc (stream_safe s)) = true.
Proof. intro s. apply is_nfc_stream_safe_spec. apply nfc_ss_conv. Qed.

Lemma test_is_fixed_point : forall s, is_nfc_stream_safe s = true <-> nfc (stream_safe s) = s.
Proof.
  intro s. split.
  - intro H. apply is_nfc_stream_safe_spec in H. destruct H as [H1 H2]. now rewrite H2.
  - intro H. rewrite <- H. apply conversion_accepted.
Qed.

Lemma runs_bounded : forall s, is_basic_text_substr s = true ->
  forall a run b, flat_map kd s = a ++ run ++ b -> Forall (fun c => ccc c <> 0) run -> (length run <= 30)%nat.
Proof. intros s H. apply substr_spec in H. destruct H as (_ & H & _). exact H. Qed.

Lemma slices_ok : forall s b, is_basic_text_substr s = true -> slice_of b s -> is_basic_text_substr b = true.
Proof. intros s b H1 H2. eapply substr_slice; eauto. Qed.

Lemma text_substr : forall s, is_basic_text s = true -> is_basic_text_substr s = true.
Proof. intros s H. apply basic_text_iff in H. tauto. Qed.
Lemma text_slices_ok : forall s b, is_basic_text s = true -> slice_of b s -> is_basic_text_substr b = true.
Proof. intros s b H1 H2. eapply substr_slice; eauto. now apply text_substr. Qed.

Lemma quick_substr_refuted : exists s b, is_basic_text_substr_quick s = Some b /\ is_basic_text_substr s <> b.
Proof. exists [0x61], false. split; vm_compute; [reflexivity|discriminate]. Qed.
Lemma quick_wrong_on_valid : forall s, is_basic_text_substr s = true -> is_basic_text_substr_quick s = Some false.
Proof.
  intros s H. unfold is_basic_text_substr in H. apply andb_prop in H. destruct H as [H _].
  unfold is_basic_text_substr_quick. rewrite H. reflexivity.
Qed.
Lemma quick_true_is_wrong : forall s, is_basic_text_substr_quick s = Some true -> is_basic_text_substr s = false.
Proof.
  intros s H. unfold is_basic_text_substr_quick in H. unfold is_basic_text_substr.
  destruct (negb _); [discriminate|reflexivity].
Qed.
