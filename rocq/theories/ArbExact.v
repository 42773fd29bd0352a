(** What the Arbitrary instances make of any bytes. *)
From Coq Require Import NArith Arith List Bool Lia.
From Verif Require Import Base Ucd Norm Chars TextUtils NormFacts DocTable SpecText TextFacts PipelineFacts DocFacts Utf8 Utf8Facts Input Output SpecRead SpecWrite Strings StringFacts ConcatFacts
  EdgeFacts SpecString StringProps SpecMore Arbitrary ArbitraryProps SpecArb.
Import ListNotations.
Local Open Scope N_scope.

Lemma front_decode : forall b s rest, decode b = (s, rest) -> utf8_front b s.
Proof.
  intros b s rest D. destruct (decode_spec _ _ _ D) as (S & E & _). split; [exact S|]. split; [now exists rest|]. intros s' rest' S' E'.
  assert (D' : decode b = let '(cs, r) := decode_go (length b - length s') rest' in (s' ++ cs, r)).
  { unfold decode. rewrite E' at 2. apply decode_go_encode; [exact S'|]. rewrite E', app_length, encode_all_length. clear. induction s' as [|c s' IH]; cbn; [lia|]. pose proof (utf8_len_pos c). cbn in IH. lia. }
  rewrite D in D'. destruct (decode_go (length b - length s') rest') as [cs r]. injection D' as -> _. now exists cs.
Qed.
Theorem front_exists : forall b, exists s, utf8_front b s.
Proof. intro b. destruct (decode b) as [s rest] eqn:D. exists s. exact (front_decode _ _ _ D). Qed.
Theorem front_unique : forall b s t, utf8_front b s -> utf8_front b t -> s = t.
Proof.
  intros b s t (S & (r & E) & M) (T & (r' & E') & M'). destruct (M t r' T E') as [u EU]. destruct (M' s r S E) as [v EV]. subst s. rewrite <- app_assoc in EV.
  rewrite <- (app_nil_r t) in EV at 1. apply app_inv_head in EV. destruct u; [|discriminate]. now rewrite app_nil_r.
Qed.

Section Arb.
Variable check : list N -> bool.
Variable ok : list N -> Prop.
Hypothesis check_ok : forall s, check s = true <-> ok s.
Hypothesis position : forall s n, str_from_text check s = TErr n -> exists m, n = Some m /\ valid_position ok s m.

Lemma encodes_iff : forall s, scalars s -> (encodes ok (encode_all s) <-> ok s).
Proof.
  intros s S. split; [|intro O; now exists s]. intros (t & T & E & O). pose proof (decode_encode s [] S eq_refl) as D. pose proof (decode_encode t [] T eq_refl) as D'.
  rewrite app_nil_r in D, D'. rewrite E, D' in D. now injection D as ->.
Qed.
Lemma arbitrary_exact : forall b s, utf8_front b s -> exists r, arbitrary check b = Some r /\ (encodes ok r <-> b = encode_all s \/ ok s) /\ (b <> encode_all s -> r = encode_all s).
Proof.
  intros b s F. destruct (decode b) as [s' rest] eqn:D. pose proof (front_unique _ _ _ F (front_decode _ _ _ D)) as <-. destruct (decode_spec _ _ _ D) as (S & E & _).
  destruct rest as [|x rest].
  - rewrite app_nil_r in E. subst b. destruct (arbitrary_valid check ok check_ok position s S) as (r & A & R). exists r. split; [exact A|]. split; [|congruence]. split; auto.
  - assert (NE : b <> encode_all s) by (rewrite E; intro Q; apply (f_equal (@length N)) in Q; rewrite app_length in Q; cbn in Q; lia).
    exists (encode_all s). split; [|split; [|reflexivity]].
    + unfold arbitrary, from_bytes. rewrite D. f_equal. rewrite E, app_length, Nat.add_sub, firstn_app, Nat.sub_diag, firstn_all, firstn_O. apply app_nil_r.
    + rewrite encodes_iff by exact S. tauto.
Qed.
End Arb.

Theorem arbitrary_str_exact : forall b s, utf8_front b s ->
  exists r, arbitrary is_basic_text b = Some r /\ (encodes string_ok r <-> b = encode_all s \/ string_ok s) /\ (b <> encode_all s -> r = encode_all s).
Proof. apply arbitrary_exact; [apply basic_text_spec|]. intros s n H. apply (error_position s n). now right. Qed.
Theorem arbitrary_substr_exact : forall b s, utf8_front b s ->
  exists r, arbitrary is_basic_text_substr b = Some r /\ (encodes substring_ok r <-> b = encode_all s \/ substring_ok s) /\ (b <> encode_all s -> r = encode_all s).
Proof. apply arbitrary_exact; [apply substr_spec|]. intros s n H. destruct (substr_error_position s n H) as (m & E & P & _). eauto. Qed.
Theorem bytes_exact : forall from b s, utf8_front b s ->
  (b = encode_all s -> from_bytes from b = from s) /\ (b <> encode_all s -> from_bytes from b = TErr (Some (length (encode_all s)))).
Proof.
  intros from b s F. destruct (decode b) as [s' rest] eqn:D. pose proof (front_unique _ _ _ F (front_decode _ _ _ D)) as <-. destruct (decode_spec _ _ _ D) as (S & E & _).
  unfold from_bytes. rewrite D. destruct rest as [|x rest].
  - rewrite app_nil_r in E. split; [reflexivity|contradiction].
  - split; intro Q; [rewrite E in Q; apply (f_equal (@length N)) in Q; rewrite app_length in Q; cbn in Q; lia|]. rewrite E, app_length, Nat.add_sub. reflexivity.
Qed.
