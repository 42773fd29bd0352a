(** What the Arbitrary instances make. *)
From Coq Require Import NArith Arith List Bool Lia.
From Verif Require Import Base Ucd Norm Chars TextUtils NormFacts DocTable SpecText TextFacts PipelineFacts DocFacts Utf8 Utf8Facts Input Output SpecRead SpecWrite Strings StringFacts ConcatFacts
  EdgeFacts SpecString StringProps SpecMore Arbitrary.
Import ListNotations.
Local Open Scope N_scope.

Lemma from_bytes_ok : forall check b t, from_bytes (str_from_text check) b = TOk t -> scalars t /\ b = encode_all t /\ check t = true.
Proof.
  intros check b t H. unfold from_bytes in H. destruct (decode b) as [s rest] eqn:D. destruct (decode_spec _ _ _ D) as (S & E & _).
  destruct rest as [|x rest]; [|discriminate]. unfold str_from_text in H. destruct (check s) eqn:C; [|discriminate]. injection H as <-. rewrite app_nil_r in E. auto.
Qed.
Lemma prefix_bytes : forall s a c, s = a ++ c -> firstn (str_len a) (encode_all s) = encode_all a.
Proof. intros s a c ->. rewrite encode_all_app, <- encode_all_length, firstn_app, Nat.sub_diag, firstn_all, firstn_O. apply app_nil_r. Qed.

Section Arb.
Variable check : list N -> bool.
Variable ok : list N -> Prop.
Hypothesis check_ok : forall s, check s = true <-> ok s.
Hypothesis position : forall s n, str_from_text check s = TErr n -> exists m, n = Some m /\ valid_position ok s m.

Lemma arbitrary_valid : forall s, scalars s -> exists r, arbitrary check (encode_all s) = Some r /\ encodes ok r.
Proof.
  intros s S. unfold arbitrary, from_bytes. assert (D : decode (encode_all s) = (s, [])) by (pose proof (decode_encode s [] S eq_refl) as D; now rewrite app_nil_r in D).
  rewrite D. destruct (str_from_text check s) as [t|n] eqn:E.
  - eexists. split; [reflexivity|]. exists s. split; [exact S|]. split; [reflexivity|]. apply check_ok. unfold str_from_text in E. now destruct (check s).
  - destruct (position _ _ E) as (m & -> & (a & c & ES & <- & OK)). eexists. split; [reflexivity|]. exists a. split; [|split; [now apply (prefix_bytes s a c)|exact OK]].
    subst s. now apply Forall_app in S.
Qed.
Lemma take_rest_exact : forall b r, arbitrary_take_rest check b = Some r <-> r = b /\ encodes ok b.
Proof.
  intros b r. unfold arbitrary_take_rest. split.
  - destruct (from_bytes (str_from_text check) b) as [t|] eqn:E; [|discriminate]. intro H. injection H as <-. split; [reflexivity|].
    destruct (from_bytes_ok _ _ _ E) as (S & EB & C). exists t. split; [exact S|]. split; [exact EB|now apply check_ok].
  - intros [-> (s & S & -> & OK)]. unfold from_bytes. assert (D : decode (encode_all s) = (s, [])) by (pose proof (decode_encode s [] S eq_refl) as D; now rewrite app_nil_r in D).
    rewrite D. unfold str_from_text. now rewrite (proj2 (check_ok s) OK).
Qed.
Lemma arbitrary_prefix : forall b r, arbitrary check b = Some r -> exists n, r = firstn n b.
Proof.
  intros b r H. unfold arbitrary in H. destruct (from_bytes (str_from_text check) b) as [t|[i|]]; [| |discriminate]; injection H as <-.
  - exists (length b). symmetry. apply firstn_all.
  - eauto.
Qed.
Lemma literal_exact : forall s t, literal check s = Some t <-> t = s /\ ok s.
Proof. intros s t. unfold literal. rewrite <- check_ok. destruct (check s); split; [intro E; injection E as <-; auto|intros [-> _]; reflexivity|discriminate|intros [_ ?]; discriminate]. Qed.
End Arb.

Theorem arbitrary_str : forall s, scalars s -> exists r, arbitrary is_basic_text (encode_all s) = Some r /\ encodes string_ok r.
Proof. apply arbitrary_valid; [apply basic_text_spec|]. intros s n H. apply (error_position s n). now right. Qed.
Theorem arbitrary_substr : forall s, scalars s -> exists r, arbitrary is_basic_text_substr (encode_all s) = Some r /\ encodes substring_ok r.
Proof. apply arbitrary_valid; [apply substr_spec|]. intros s n H. destruct (substr_error_position s n H) as (m & E & P & _). eauto. Qed.
Theorem take_rest_str : forall b r, arbitrary_take_rest is_basic_text b = Some r <-> r = b /\ encodes string_ok b.
Proof. apply take_rest_exact. apply basic_text_spec. Qed.
Theorem take_rest_substr : forall b r, arbitrary_take_rest is_basic_text_substr b = Some r <-> r = b /\ encodes substring_ok b.
Proof. apply take_rest_exact. apply substr_spec. Qed.
Theorem literal_str : forall s t, literal is_basic_text s = Some t <-> t = s /\ string_ok s.
Proof. apply literal_exact. apply basic_text_spec. Qed.
Theorem literal_substr : forall s t, literal is_basic_text_substr s = Some t <-> t = s /\ substring_ok s.
Proof. apply literal_exact. apply substr_spec. Qed.
