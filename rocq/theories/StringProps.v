(** The lemmas behind the properties of the string types. *)
From Coq Require Import NArith Arith List Bool Lia ZifyBool ZifyNat ZifyN.
From Verif Require Import Base Ucd UcdTables Norm Chars TextTables TextUtils UcdFacts NormFacts CharFacts DocTable SpecText TextFacts PipelineFacts DocFacts IsoFacts
  Utf8 Utf8Facts Input Output ReadFacts ReadInv ReadSession SpecRead ReadChunk SpecEscape EscapeFacts EscapeRun ReadProps KeepFacts ReadPieces SpecConv ConvFacts
  SpecWrite WriteFacts WriteProps Strings StringFacts ConcatFacts EdgeFacts SpecString.
Import ListNotations.
Local Open Scope N_scope.
Arguments N.add : simpl never.
Arguments N.leb : simpl never.
Arguments N.ltb : simpl never.
Arguments N.eqb : simpl never.
Local Opaque pipeline.

(** * Strict conversion *)
Lemma accepted_iff : forall s, accepted s = true <-> strict_accepts s.
Proof.
  intro s. unfold accepted, strict_accepts. rewrite pipeline_first, pipeline_last_iff, !andb_true_iff, starts_ok_iff, ends_ok_iff, all_allowed.
  rewrite Forall_allowed_clean. tauto.
Qed.
Lemma accepted_clean : forall s, accepted s = true -> all_clean s.
Proof. intros s H. apply accepted_iff in H. destruct H as (_ & _ & H). now apply Forall_allowed_clean. Qed.
Lemma pipeline_iso : forall s, all_clean s -> pipeline s = nfc (stream_safe (isolate_unassigned s)).
Proof.
  intros s H. rewrite pipeline_conv. unfold conv. rewrite cjk_clean_id; [reflexivity|]. apply Forall_forall. intros x HX. unfold isolate_unassigned in HX.
  apply iso_in in HX. destruct HX as [HX| ->]; [|exact clean_CGJ]. rewrite Forall_forall in H. now apply H.
Qed.
Lemma accepted_ok : forall s, accepted s = true -> string_ok (pipeline s).
Proof.
  intros s H. pose proof (accepted_clean _ H) as C. unfold accepted in H. rewrite !andb_true_iff in H. destruct H as [[H1 H2] H3].
  apply basic_text_spec, basic_text_iff. split; [|auto]. apply substr_ok_iff. split; [now apply pipeline_all_clean|apply pipeline_nfc_ss].
Qed.
Theorem from_text_ok : forall check s t, string_from_text check s = TOk t -> string_ok t.
Proof.
  intros check s t H. rewrite string_from_text_spec in H. destruct (accepted s) eqn:E; [|discriminate]. injection H as <-. now apply accepted_ok.
Qed.
Theorem from_text_succeeds : forall check s, (exists t, string_from_text check s = TOk t) <-> strict_accepts s.
Proof.
  intros check s. rewrite string_from_text_spec, <- accepted_iff. destruct (accepted s); split; try discriminate; eauto. intros [t H]. discriminate.
Qed.
Theorem from_text_conversion : forall check s t, string_from_text check s = TOk t -> t = nfc (stream_safe (isolate_unassigned s)).
Proof.
  intros check s t H. rewrite string_from_text_spec in H. destruct (accepted s) eqn:E; [|discriminate]. injection H as <-.
  apply pipeline_iso. now apply accepted_clean.
Qed.
Theorem from_text_documented : forall check s t, unguarded_text s ->
  string_from_text check s = TOk t <-> strict_accepts s /\ strict_result s t.
Proof.
  intros check s t U. unfold strict_result. rewrite <- (iso_documented _ U). split.
  - intro H. split; [apply (from_text_succeeds check); eauto|now apply (from_text_conversion check)].
  - intros [H ->]. apply (from_text_succeeds check) in H. destruct H as [t H]. rewrite H. now rewrite (from_text_conversion _ _ _ H).
Qed.
Lemma ok_accepted : forall s, string_ok s -> strict_accepts s.
Proof. intros s ((_ & _ & A) & S & E). repeat split; assumption. Qed.
Lemma ok_pipeline : forall s, string_ok s -> preceded s -> pipeline s = s.
Proof.
  intros s H P. apply basic_text_spec, basic_text_iff in H. destruct H as [H _]. apply substr_ok_iff in H. destruct H as [C N]. apply pipeline_fix; auto.
  now apply prec_ok_spec.
Qed.
Theorem from_text_fixed : forall check s, string_ok s -> preceded s -> string_from_text check s = TOk s.
Proof.
  intros check s H P. rewrite string_from_text_spec. rewrite (proj2 (accepted_iff s) (ok_accepted _ H)). now rewrite ok_pipeline.
Qed.
Theorem from_text_twice : forall check check' s t, string_from_text check s = TOk t -> string_from_text check' t = TOk t.
Proof.
  intros check check' s t H. apply from_text_fixed; [exact (from_text_ok _ _ _ H)|]. rewrite string_from_text_spec in H.
  destruct (accepted s); [|discriminate]. injection H as <-. apply pipeline_preceded.
Qed.

(** * Error positions *)
Theorem error_position : forall s n, string_from_text is_basic_text s = TErr n \/ str_from_text is_basic_text s = TErr n ->
  exists m, n = Some m /\ valid_position string_ok s m.
Proof.
  intros s n H. assert (E : n = compute_valid_up_to is_basic_text s).
  { destruct H as [H|H]; [rewrite string_from_text_spec in H; destruct (accepted s); congruence|].
    unfold str_from_text in H. destruct (is_basic_text s); congruence. }
  destruct (cvu_spec is_basic_text s eq_refl) as (m & a & b & H1 & H2 & H3 & H4 & _). exists m. split; [congruence|].
  exists a, b. split; [exact H2|]. split; [exact H3|]. now apply basic_text_spec.
Qed.
Lemma cvu_substr : forall s, exists m, compute_valid_up_to is_basic_text_substr s = Some m /\ valid_position substring_ok s m /\
  (is_basic_text_substr s = false -> longest_position substring_ok s m).
Proof.
  intro s. destruct (cvu_spec is_basic_text_substr s eq_refl) as (m & a & b & H1 & H2 & H3 & H4 & H5). exists m. split; [exact H1|].
  assert (V : valid_position substring_ok s m) by (exists a, b; split; [exact H2|]; split; [exact H3|]; now apply substr_spec).
  split; [exact V|]. intro HF. split; [exact V|]. intros k (x & y & E & L & O). apply substr_spec in O.
  assert (PC : forall x y, s = x ++ y -> is_basic_text_substr x = true -> forall u v, x = u ++ v -> is_basic_text_substr u = true).
  { intros x' y' _ HX u v ->. exact (proj1 (substr_app u v HX)). }
  destruct (H5 PC HF x y E O) as [z ->]. rewrite <- H3, <- L, str_len_app. lia.
Qed.
Theorem substr_error_position : forall s n, str_from_text is_basic_text_substr s = TErr n -> exists m, n = Some m /\ longest_position substring_ok s m.
Proof.
  intros s n H. destruct (cvu_substr s) as (m & H1 & _ & H2). unfold str_from_text in H. destruct (is_basic_text_substr s) eqn:E; [discriminate|].
  injection H as <-. exists m. auto.
Qed.
Theorem substring_error_position : forall s n, string_from_text is_basic_text_substr s = TErr n -> exists m, n = Some m /\ valid_position substring_ok s m.
Proof.
  intros s n H. destruct (cvu_substr s) as (m & H1 & H2 & _). rewrite string_from_text_spec in H. destruct (accepted s); [discriminate|].
  injection H as <-. exists m. auto.
Qed.

Lemma from_bytes_error : forall from bs n, from_bytes from bs = TErr n ->
  (exists s, scalars s /\ bs = encode_all s /\ from s = TErr n) \/
  (exists m s rest, n = Some m /\ bs = encode_all s ++ rest /\ length (encode_all s) = m /\ scalars s /\ rest <> [] /\ decode1 rest = None).
Proof.
  intros from bs n H. unfold from_bytes in H. destruct (decode bs) as [s rest] eqn:E. apply decode_spec in E. destruct E as (S & B & D).
  destruct rest as [|x rest]; [left|right].
  - exists s. rewrite app_nil_r in B. auto.
  - exists (length (encode_all s)), s, (x :: rest). injection H as <-. split; [|repeat split; auto; discriminate].
    rewrite B, app_length. rewrite Nat.add_sub. reflexivity.
Qed.
