(** Every value that a program can make is valid, under rules. *)
From Coq Require Import NArith Arith List Bool Lia ZifyBool ZifyNat ZifyN.
From Verif Require Import Base Ucd UcdTables Norm Chars TextTables TextUtils UcdFacts NormFacts CharFacts DocTable SpecText TextFacts PipelineFacts
  Utf8 Utf8Facts Input Output ReadFacts SpecRead Strings StringFacts ConcatFacts SpecString StringProps LossyProps JoinProps Lines LineProps SpecLone LoneProps SpecValues.
Import ListNotations.
Local Open Scope N_scope.
Arguments N.add : simpl never.
Arguments N.leb : simpl never.
Arguments N.ltb : simpl never.
Arguments N.eqb : simpl never.
Local Opaque pipeline.

Lemma str_ok : forall s t, str_from_text is_basic_text s = TOk t -> string_ok t.
Proof. intros s t. unfold str_from_text. destruct (is_basic_text s) eqn:E; [|discriminate]. intro H. injection H as <-. now apply basic_text_spec. Qed.
Lemma substr_str_ok : forall s t, str_from_text is_basic_text_substr s = TOk t -> substring_ok t.
Proof. intros s t. unfold str_from_text. destruct (is_basic_text_substr s) eqn:E; [|discriminate]. intro H. injection H as <-. now apply substr_spec. Qed.
Lemma line_ok : forall a bs n t rest, read_text_line a bs = (LOk n, t, rest) -> string_ok t.
Proof.
  intros a bs n t rest. unfold read_text_line. destruct (read_line a bs) as [[[m|] b] q]; [|discriminate]. destruct (is_basic_text b) eqn:E; [|discriminate].
  intro H. inversion H; subst. now apply basic_text_spec.
Qed.
Lemma lossy_some : forall v t, lossy v (Some t) -> string_ok t.
Proof. intros v t H. destruct (lossy_ok v _ H) as (u & E & K). congruence. Qed.
Lemma nil_ok : string_ok []. Proof. apply basic_text_spec. reflexivity. Qed.
Lemma split_sub : forall s mid u v, split_at is_basic_text_substr s mid = Some (u, v) -> s = u ++ v /\ substring_ok u /\ substring_ok v.
Proof. intros s mid u v H. apply split_iff in H. destruct H as (-> & _ & H1 & H2). rewrite <- !substr_spec. auto. Qed.
Lemma index_parts : forall s u, (exists i j, index s i j = Some u) \/ (exists j, index_to s j = Some u) \/ (exists i, index_from s i = Some u) -> exists a b, s = a ++ u ++ b.
Proof.
  intros s u [(i & j & H)|[(j & H)|(i & H)]].
  - apply index_iff in H. destruct H as (a & b & -> & _). eauto.
  - apply index_to_iff in H. destruct H as (b & -> & _). now exists [], b.
  - apply index_from_iff in H. destruct H as (a & -> & _). exists a, []. now rewrite app_nil_r.
Qed.

(** * Checking first *)
Theorem checked_str : forall t, str_value checked t -> string_ok t.
Proof.
  intros t H. induction H as [|s t H _|s t H _|v t H _|a b HA IA HB IB J|a n HA IA J|a HA IA T|a HA IA T|a HA IA T|a mid u v w HA IA E W|a v text HA IA R _ J
    |a bs n t rest HA IA E _|d bs its t E I _|d conv bs its t C E I _].
  - exact nil_ok.
  - exact (from_text_ok _ _ _ H).
  - exact (str_ok _ _ H).
  - exact (lossy_some _ _ H).
  - now apply push_text_ok.
  - apply repeat_text_ok; [exact IA|now right].
  - apply (proj1 (trim_str a IA)). apply T.
  - apply (proj1 (proj2 (trim_str a IA))). apply T.
  - apply (proj2 (proj2 (trim_str a IA))). exact T.
  - apply split_str in E. destruct E as (_ & _ & U & V). destruct W as [-> | ->]; assumption.
  - apply read_to_string_ok; auto. now apply reads_as_ok in R.
  - exact (line_ok _ _ _ _ _ E).
  - exact (proj1 (lines_valid _ _ _ _ E I)).
  - exact (lossy_lines_valid _ _ _ _ _ C E I).
Qed.
Lemma sub_app : forall a b, substring_ok a -> substring_ok b -> starts_ok b -> ~ joined a b -> substring_ok (a ++ b).
Proof.
  intros a b HA HB SB J. apply substr_spec in HA, HB. apply substr_spec. apply substr_ok_iff in HA, HB. destruct HA as [CA NA], HB as [CB NB].
  apply substr_ok_iff. split; [now apply Forall_app|]. apply (seam_iff a b SB NA NB). now apply seam_joined.
Qed.
Lemma repeat_head : forall s n c t, repeat_text s n = c :: t -> exists u, s = c :: u.
Proof. intros [|d s] n c t E. - induction n; cbn in E; [discriminate|auto]. - destruct n; [discriminate|]. cbn in E. injection E as -> _. eauto. Qed.
Lemma sub_repeat : forall s n, substring_ok s -> starts_ok s -> ~ joined s s -> substring_ok (repeat_text s n).
Proof.
  intros s n H SS J. induction n as [|n IH]; cbn [repeat_text]; [exact (proj1 nil_ok)|]. apply sub_app; auto.
  - intros c t E. apply repeat_head in E. destruct E as [u E]. exact (SS _ _ E).
  - intros (t & x & c & u & EA & EB & K). apply J. apply repeat_head in EB. destruct EB as [u' EB]. exists t, x, c, u'. auto.
Qed.
(** the rules of substrings, for any rules on strings that keep them valid *)
Lemma sub_values : forall r, (forall t, str_value r t -> string_ok t) -> (forall s n, sub_value r s -> may_repeat r s -> substring_ok s -> substring_ok (repeat_text s n)) ->
  forall t, sub_value r t -> substring_ok t.
Proof.
  intros r HS HR t H. induction H as [a HA|s t H _|s t H _|a i j u HA IA E|a j u HA IA E|a i u HA IA E|a HA IA|a HA IA|a HA IA|a mid u v w HA IA E W|a n HA IA R].
  - exact (proj1 (HS _ HA)).
  - exact (proj1 (from_text_ok _ _ _ H)).
  - exact (substr_str_ok _ _ H).
  - apply (index_valid a); [exact IA|]. left. eauto.
  - apply (index_valid a); [exact IA|]. right. left. eauto.
  - apply (index_valid a); [exact IA|]. right. right. eauto.
  - now apply trim_substr.
  - now apply trim_substr.
  - now apply trim_substr.
  - apply split_sub in E. destruct E as (_ & U & V). destruct W as [-> | ->]; assumption.
  - now apply HR.
Qed.
Theorem checked_sub : forall t, sub_value checked t -> substring_ok t.
Proof. apply sub_values; [exact checked_str|]. intros s n _ [R1 R2] H. now apply sub_repeat. Qed.

(** * Texts that need no checks *)
Lemma loose_slice : forall a u b, loose (a ++ u ++ b) -> loose u.
Proof.
  intros a u b [F P]. split.
  - apply Forall_app in F. destruct F as [_ F]. apply Forall_app in F. tauto.
  - intros a' x y b' ->. apply (P (a ++ a') x y (b' ++ b)). now rewrite <- !app_assoc.
Qed.
Lemma loose_app : forall a b, loose a -> loose b -> ends_ok a -> starts_ok b -> loose (a ++ b).
Proof.
  intros a b [FA PA] [FB PB] EA SB. split; [now apply Forall_app|]. intros u x y v E.
  destruct (app_eq_app a b u (x :: y :: v) E) as [l [[E1 E2]|[E1 E2]]].
  - (* a = u ++ l, x :: y :: v = l ++ b *) destruct l as [|x' [|y' l]].
    + cbn in E2. subst b. exact (PB [] x y v eq_refl).
    + cbn in E2. injection E2 as <- E2. split; intros _; [apply (SB y v); congruence|exact (EA u x E1)].
    + cbn in E2. injection E2 as <- <- ->. exact (PA u x y l E1).
  - (* u = a ++ l *) exact (PB l x y v E2).
Qed.
Lemma loose_not_joined : forall a b, loose b -> ~ joined a b.
Proof. intros a b [F _]. apply tail_not_joined. intros c u ->. inversion F; subst. assumption. Qed.
Lemma loose_nil : loose [].
Proof. split; [constructor|]. intros [|? ?] x y b E; discriminate. Qed.
Lemma push_loose : forall a b, string_ok a -> string_ok b -> loose a -> loose b -> loose (push_text a b).
Proof.
  intros a [|c b] HA HB LA LB; cbn [push_text]; [exact LA|].
  assert (G : loose (a ++ c :: b)) by (apply loose_app; auto; [apply HA|apply HB]).
  destruct (c =? CGJ) eqn:EC; cbn [andb]; [|exact G]. destruct (last_opt a) as [l|] eqn:EL; [|exact G]. destruct (l =? CGJ) eqn:EL2; [|exact G].
  apply N.eqb_eq in EC, EL2. subst c l. apply last_opt_some in EL. destruct EL as [t ->]. rewrite <- app_assoc. cbn [app].
  clear G. destruct LA as [FA PA], LB as [FB PB]. split.
  - apply Forall_app in FA. apply Forall_app. split; [apply FA|exact FB].
  - intros u x y v E. destruct (app_eq_app t (CGJ :: b) u (x :: y :: v) E) as [l [[E1 E2]|[E1 E2]]].
    + destruct l as [|x' [|y' l]].
      * cbn in E2. exact (PB [] x y v (eq_sym E2)).
      * cbn in E2. injection E2 as -> -> ->. apply (PA u x' CGJ []). rewrite E1, <- app_assoc. reflexivity.
      * cbn in E2. injection E2 as <- <- ->. apply (PA u x y (l ++ [CGJ])). rewrite E1, <- app_assoc. reflexivity.
    + exact (PB l x y v E2).
Qed.
Lemma repeat_loose : forall s n, string_ok s -> loose s -> loose (repeat_text s n).
Proof.
  intros s n H L. induction n as [|n IH]; cbn [repeat_text]; [exact loose_nil|]. apply loose_app; auto; [apply H|].
  intros c t E. apply repeat_head in E. destruct E as [u E]. destruct H as (_ & SS & _). exact (SS _ _ E).
Qed.
Lemma white_snoc : forall a, a <> [] -> Forall white_space a -> exists t x, a = t ++ [x] /\ white_space x.
Proof. intros a NE F. destruct a as [|x a _] using rev_ind; [congruence|]. apply Forall_app in F. destruct F as [_ F]. inversion F; subst. eauto. Qed.
Lemma trim_start_loose : forall s, starts_ok s -> loose s -> starts_ok (trim_start s) /\ loose (trim_start s).
Proof.
  intros s SS L. destruct (trim_removes s) as ((a & E & F & _) & _). split.
  - intros c t ET. destruct a as [|d a]; [apply (SS c t); cbn in E; congruence|]. destruct (white_snoc (d :: a)) as (p & x & EP & W); [discriminate|exact F|].
    destruct L as [_ P]. rewrite ET, EP, <- app_assoc in E. exact (proj1 (P p x c t E) W).
  - rewrite E in L. apply (loose_slice a _ []). now rewrite app_nil_r.
Qed.
Lemma trim_end_loose : forall s, ends_ok s -> loose s -> ends_ok (trim_end s) /\ loose (trim_end s).
Proof.
  intros s SS L. destruct (trim_removes s) as (_ & (b & E & F & _) & _). split.
  - intros t c ET. destruct b as [|d b]; [apply (SS t c); rewrite app_nil_r in E; congruence|]. inversion F; subst.
    destruct L as [_ P]. rewrite ET, <- app_assoc in E. apply (proj2 (P t c d b E)). assumption.
  - rewrite E in L. exact (loose_slice [] _ b L).
Qed.
Theorem loose_str : forall rep t, str_value (given loose rep) t -> string_ok t /\ loose t.
Proof.
  intros rep t H. induction H as [|s t H S|s t H S|v t H S|a b HA IA HB IB _|a n HA IA _|a HA IA _|a HA IA _|a HA IA _|a mid u v w HA IA E W|a v text HA IA R S _
    |a bs n t rest HA IA E S|d bs its t E I S|d conv bs its t C E I S]; cbn [source given] in *.
  - exact (conj nil_ok loose_nil).
  - exact (conj (from_text_ok _ _ _ H) S).
  - exact (conj (str_ok _ _ H) S).
  - exact (conj (lossy_some _ _ H) S).
  - destruct IA as [A1 A2], IB as [B1 B2]. split; [|now apply push_loose]. apply push_text_ok; auto. now apply loose_not_joined.
  - destruct IA as [A1 A2]. split; [|now apply repeat_loose]. apply repeat_text_ok; [exact A1|]. right. now apply loose_not_joined.
  - destruct IA as [A1 A2]. destruct (trim_start_loose a) as [T1 T2]; [apply A1|exact A2|]. split; [|exact T2]. now apply (proj1 (trim_str a A1)).
  - destruct IA as [A1 A2]. destruct (trim_end_loose a) as [T1 T2]; [apply A1|exact A2|]. split; [|exact T2]. now apply (proj1 (proj2 (trim_str a A1))).
  - destruct IA as [A1 A2]. destruct (trim_start_loose a) as [T1 T2]; [apply A1|exact A2|]. assert (S1 : string_ok (trim_start a)) by (now apply (proj1 (trim_str a A1))).
    unfold trim. destruct (trim_end_loose (trim_start a)) as [U1 U2]; [apply S1|exact T2|]. split; [|exact U2]. now apply (proj1 (proj2 (trim_str _ S1))).
  - apply split_str in E. destruct E as (-> & _ & U & V). destruct IA as [_ L]. destruct W as [-> | ->]; split; auto.
    + exact (loose_slice [] u v L).
    + apply (loose_slice u v []). now rewrite app_nil_r.
  - destruct IA as [A1 A2]. destruct (reads_as_ok _ _ R) as [T _]. split; [apply read_to_string_ok; auto; now apply loose_not_joined|]. cbn. apply loose_app; auto; [apply A1|apply T].
  - exact (conj (line_ok _ _ _ _ _ E) S).
  - exact (conj (proj1 (lines_valid _ _ _ _ E I)) S).
  - exact (conj (lossy_lines_valid _ _ _ _ _ C E I) S).
Qed.
(** substrings need a check only before repetition *)
Definition no_tails (s : list N) : Prop := Forall (fun c => ~ vowel_or_trailing c) s.
Lemma tails_slice : forall a u b, no_tails (a ++ u ++ b) -> no_tails u.
Proof. intros a u b H. apply Forall_app in H. destruct H as [_ H]. apply Forall_app in H. tauto. Qed.
Lemma tails_not_joined : forall a b, no_tails b -> ~ joined a b.
Proof. intros a b F. apply tail_not_joined. intros c u ->. inversion F; subst. assumption. Qed.
Lemma loose_sub_tails : forall rep t, sub_value (given loose rep) t -> no_tails t.
Proof.
  intros rep t H. induction H as [a HA|s t H S|s t H S|a i j u HA IA E|a j u HA IA E|a i u HA IA E|a HA IA|a HA IA|a HA IA|a mid u v w HA IA E W|a n HA IA R]; cbn [source given] in *.
  - exact (proj1 (proj2 (loose_str _ _ HA))).
  - exact (proj1 S).
  - exact (proj1 S).
  - destruct (index_parts a u) as (p & q & ->); [left; eauto|]. exact (tails_slice _ _ _ IA).
  - destruct (index_parts a u) as (p & q & ->); [right; left; eauto|]. exact (tails_slice _ _ _ IA).
  - destruct (index_parts a u) as (p & q & ->); [right; right; eauto|]. exact (tails_slice _ _ _ IA).
  - destruct (trim_removes a) as ((p & E & _) & _). rewrite E in IA. apply (tails_slice p _ []). now rewrite app_nil_r.
  - destruct (trim_removes a) as (_ & (p & E & _) & _). rewrite E in IA. exact (tails_slice [] _ p IA).
  - destruct (trim_removes a) as (_ & _ & (p & q & E & _)). rewrite E in IA. exact (tails_slice p _ q IA).
  - apply split_sub in E. destruct E as (-> & _). apply Forall_app in IA. destruct W as [-> | ->]; apply IA.
  - clear - IA. induction n; cbn [repeat_text]; [constructor|]. now apply Forall_app.
Qed.
Theorem loose_sub : forall t, sub_value (given loose starts_ok) t -> substring_ok t.
Proof.
  apply sub_values; [intros t H; now apply loose_str in H|]. intros s n HV R H. apply sub_repeat; auto. apply tails_not_joined. exact (loose_sub_tails _ _ HV).
Qed.

(** * Precomposed text *)
Lemma lone_slice : forall a u b, Forall lone (a ++ u ++ b) -> Forall lone u.
Proof. intros a u b H. apply Forall_app in H. destruct H as [_ H]. apply Forall_app in H. tauto. Qed.
Lemma lone_repeat : forall s n, Forall lone s -> Forall lone (repeat_text s n).
Proof. intros s n H. induction n; cbn [repeat_text]; [constructor|]. now apply Forall_app. Qed.
Lemma lone_push : forall a b, Forall lone a -> Forall lone b -> Forall lone (push_text a b).
Proof.
  intros a [|c b] HA HB; cbn [push_text]; [exact HA|]. destruct (_ && _); apply Forall_app; split; auto. now inversion HB.
Qed.
Lemma lone_trims : forall s, Forall lone s -> Forall lone (trim_start s) /\ Forall lone (trim_end s) /\ Forall lone (trim s).
Proof.
  intros s H. destruct (trim_removes s) as ((a & E1 & _) & (b & E2 & _) & (p & q & E3 & _)). split; [|split].
  - rewrite E1 in H. apply (lone_slice a _ []). now rewrite app_nil_r.
  - rewrite E2 in H. exact (lone_slice [] _ b H).
  - rewrite E3 in H. exact (lone_slice p _ q H).
Qed.
Theorem lone_str : forall t, str_value (given (Forall lone) (fun _ => True)) t -> Forall lone t.
Proof.
  intros t H. induction H as [|s t H S|s t H S|v t H S|a b HA IA HB IB _|a n HA IA _|a HA IA _|a HA IA _|a HA IA _|a mid u v w HA IA E W|a v text HA IA R S _
    |a bs n t rest HA IA E S|d bs its t E I S|d conv bs its t C E I S]; cbn [source given] in *; auto.
  - now apply lone_push.
  - now apply lone_repeat.
  - now apply lone_trims.
  - now apply lone_trims.
  - now apply lone_trims.
  - apply split_str in E. destruct E as (-> & _). apply Forall_app in IA. destruct W as [-> | ->]; apply IA.
  - cbn. now apply Forall_app.
Qed.
Theorem lone_sub : forall t, sub_value (given (Forall lone) (fun _ => True)) t -> Forall lone t /\ string_ok t.
Proof.
  intros t H. assert (Forall lone t); [|split; [assumption|now apply lone_ok]].
  induction H as [a HA|s t H S|s t H S|a i j u HA IA E|a j u HA IA E|a i u HA IA E|a HA IA|a HA IA|a HA IA|a mid u v w HA IA E W|a n HA IA R]; cbn [source given] in *; auto.
  - now apply lone_str.
  - destruct (index_parts a u) as (p & q & ->); [left; eauto|]. exact (lone_slice _ _ _ IA).
  - destruct (index_parts a u) as (p & q & ->); [right; left; eauto|]. exact (lone_slice _ _ _ IA).
  - destruct (index_parts a u) as (p & q & ->); [right; right; eauto|]. exact (lone_slice _ _ _ IA).
  - now apply lone_trims.
  - now apply lone_trims.
  - now apply lone_trims.
  - apply split_sub in E. destruct E as (-> & _). apply Forall_app in IA. destruct W as [-> | ->]; apply IA.
  - now apply lone_repeat.
Qed.

(** * extend is a series of push_text *)
Theorem extend_value : forall rep src l a, str_value (given src rep) a -> Forall (str_value (given src rep)) l -> str_value (given src rep) (extend a l).
Proof.
  intros rep src l. induction l as [|b l IH]; intros a HA HL; [exact HA|]. inversion HL; subst. unfold extend. cbn [fold_left]. apply IH; auto. now apply sv_push.
Qed.
