(** Searching with patterns of single characters, and with the empty pattern. *)
From Coq Require Import NArith Arith List Bool Lia Sorted.
From Verif Require Import Base Ucd Norm Chars TextUtils SpecText TextFacts Utf8 Utf8Facts Strings JoinProps Search SpecSearch SearchProps Views SpecViews ViewProps Patterns.
Import ListNotations.
Local Open Scope N_scope.

(** * The empty pattern *)
Lemma boundaries_in : forall s pos i, In i (boundaries s pos) <-> exists a b, s = a ++ b /\ i = (pos + str_len a)%nat.
Proof.
  induction s as [|c s IH]; intros pos i; cbn [boundaries In].
  - split; [intros [<-|[]]; exists [], []; split; [reflexivity|cbn; lia]|]. intros (a & b & E & ->). destruct a; [|discriminate]. left. cbn. lia.
  - rewrite IH. split.
    + intros [<-|(a & b & -> & ->)]; [exists [], (c :: s); split; [reflexivity|cbn; lia]|]. exists (c :: a), b. split; [reflexivity|]. cbn [str_len]. lia.
    + intros (a & b & E & ->). destruct a as [|x a]; [left; cbn; lia|]. injection E as <- ->. right. exists a, b. split; [reflexivity|]. cbn [str_len]. lia.
Qed.
Lemma boundaries_sorted : forall s pos, StronglySorted lt (boundaries s pos).
Proof.
  induction s as [|c s IH]; intro pos; cbn [boundaries]; [repeat constructor|]. constructor; [apply IH|]. apply Forall_forall. intros i K. apply boundaries_in in K. destruct K as (a & b & _ & ->).
  pose proof (utf8_len_pos c). lia.
Qed.
Lemma sorted_unique : forall l m, StronglySorted lt l -> StronglySorted lt m -> (forall i, In i l <-> In i m) -> l = m.
Proof.
  induction l as [|x l IH]; intros [|y m] SL SM H; [reflexivity| | |].
  - destruct (proj2 (H y) (or_introl eq_refl)).
  - destruct (proj1 (H x) (or_introl eq_refl)).
  - apply StronglySorted_inv in SL. apply StronglySorted_inv in SM. destruct SL as [SL FL], SM as [SM FM]. rewrite Forall_forall in FL, FM.
    assert (x = y) as ->. { destruct (proj1 (H x) (or_introl eq_refl)) as [E|K]; [now symmetry|]. destruct (proj2 (H y) (or_introl eq_refl)) as [E|K']; [exact E|]. specialize (FM _ K). specialize (FL _ K'). lia. }
    f_equal. apply IH; auto. intro i. split; intro K.
    + destruct (proj1 (H i) (or_intror K)) as [<-|Q]; [|exact Q]. specialize (FL _ K). lia.
    + destruct (proj2 (H i) (or_intror K)) as [<-|Q]; [|exact Q]. specialize (FM _ K). lia.
Qed.
Theorem empty_matches : forall s l, text_match_indices s [] = l <-> StronglySorted lt l /\ forall i, In i l <-> occurs_at [] s i.
Proof.
  intros s l. assert (B : forall i, In i (boundaries s 0) <-> occurs_at [] s i).
  { intro i. rewrite boundaries_in. unfold occurs_at. cbn [app Nat.add]. split; intros (a & b & E & F); exists a, b; auto. }
  cbn [text_match_indices]. split; [intros <-; split; [apply boundaries_sorted|exact B]|]. intros [SL H]. apply sorted_unique; [apply boundaries_sorted|exact SL|]. intro i. now rewrite B, H.
Qed.
Theorem empty_rmatches : forall s, text_rmatch_indices s [] = rev (text_match_indices s []).
Proof. reflexivity. Qed.

(** * The matches themselves *)
Lemma leftmost_in : forall p s pos l i, leftmost p s pos l -> In i l -> exists j, occurs_at p s j /\ i = (pos + j)%nat.
Proof.
  intros p s pos l i H. induction H as [|a b pos l _ _ IH]; intros K; [destruct K|]. destruct K as [<-|K].
  - exists (str_len a). split; [|reflexivity]. exists a, b. auto.
  - destruct (IH K) as (j & (x & y & -> & <-) & ->). exists (str_len a + str_len p + str_len x)%nat. split; [|lia]. exists (a ++ p ++ x), y. rewrite <- !app_assoc, !str_len_app. split; [reflexivity|lia].
Qed.
Lemma rightmost_in : forall p s l i, rightmost p s l -> In i l -> occurs_at p s i.
Proof.
  intros p s l i H. induction H as [|a b l _ _ IH]; intros K; [destruct K|]. destruct K as [<-|K].
  - exists a, b. auto.
  - destruct (IH K) as (x & y & -> & <-). exists x, (y ++ p ++ b). now rewrite <- !app_assoc.
Qed.
Lemma match_bytes : forall s p i, occurs_at p s i -> firstn (length (encode_all p)) (skipn i (encode_all s)) = encode_all p.
Proof.
  intros s p i (a & b & -> & <-). rewrite !encode_all_app, <- encode_all_length, skipn_app, skipn_all, Nat.sub_diag. cbn [skipn app]. rewrite firstn_app, firstn_all, Nat.sub_diag. apply app_nil_r.
Qed.
Lemma match_occurs : forall s p i, scalars s -> scalars p -> In i (text_match_indices s p) -> occurs_at p s i.
Proof.
  intros s p i SS SP K. destruct p as [|c p].
  - now apply (proj2 (proj1 (empty_matches s _) eq_refl)).
  - destruct (leftmost_in _ _ _ _ _ (match_indices_spec s (c :: p) SS SP ltac:(discriminate)) K) as (j & O & ->). exact O.
Qed.
Lemma rmatch_occurs : forall s p i, scalars s -> scalars p -> In i (text_rmatch_indices s p) -> occurs_at p s i.
Proof.
  intros s p i SS SP K. destruct p as [|c p].
  - apply (match_occurs s [] i SS SP). rewrite empty_rmatches in K. now apply in_rev in K.
  - exact (rightmost_in _ _ _ _ (rmatch_indices_spec s (c :: p) SS SP ltac:(discriminate)) K).
Qed.
Lemma map_same : forall A B (f : A -> B) x l, (forall a, In a l -> f a = x) -> map f l = repeat x (length l).
Proof. intros A B f x l. induction l as [|a l IH]; intro H; [reflexivity|]. cbn. rewrite H by now left. f_equal. apply IH. intros b K. apply H. now right. Qed.
Theorem matches_text : forall s p, scalars s -> scalars p ->
  text_matches s p = repeat (encode_all p) (length (text_match_indices s p)) /\ text_rmatches s p = repeat (encode_all p) (length (text_rmatch_indices s p)).
Proof.
  intros s p SS SP. split; apply map_same; intros i K; apply match_bytes; [now apply match_occurs|now apply rmatch_occurs].
Qed.

(** * Patterns of single characters *)
Lemma by_find_from_some : forall P s pos i, by_find_from P pos s = Some i <-> exists a c b, s = a ++ c :: b /\ P c = true /\ Forall (fun x => P x = false) a /\ i = (pos + str_len a)%nat.
Proof.
  intros P. induction s as [|x s IH]; intros pos i; cbn [by_find_from].
  - split; [discriminate|]. intros (a & c & b & E & _). destruct a; discriminate.
  - destruct (P x) eqn:E.
    + split; [intro H; injection H as <-; exists [], x, s; cbn; repeat split; auto; lia|]. intros (a & c & b & EQ & PC & F & ->). destruct a as [|y a]; [cbn; f_equal; lia|]. injection EQ as -> ->. inversion F; subst. congruence.
    + rewrite IH. split.
      * intros (a & c & b & -> & PC & F & ->). exists (x :: a), c, b. split; [reflexivity|]. split; [exact PC|]. split; [now constructor|]. cbn [str_len]. lia.
      * intros (a & c & b & EQ & PC & F & ->). destruct a as [|y a]; [injection EQ as -> ->; congruence|]. injection EQ as -> ->. inversion F; subst. exists a, c, b. repeat split; auto. cbn [str_len]. lia.
Qed.
Lemma by_find_from_none : forall P s pos, by_find_from P pos s = None <-> Forall (fun x => P x = false) s.
Proof.
  intros P. induction s as [|x s IH]; intro pos; cbn [by_find_from]; [split; [constructor|reflexivity]|]. destruct (P x) eqn:E.
  - split; [discriminate|]. intro F. inversion F; congruence.
  - rewrite IH. split; [now constructor|]. intro F. now inversion F.
Qed.
Theorem by_find_spec : forall P s, (forall i, by_find P s = Some i <-> exists a c b, s = a ++ c :: b /\ P c = true /\ Forall (fun x => P x = false) a /\ i = str_len a) /\
  (by_find P s = None <-> Forall (fun x => P x = false) s).
Proof. intros P s. split; [intro i; apply (by_find_from_some P s 0 i)|apply (by_find_from_none P s 0)]. Qed.
Lemma by_rfind_from_some : forall P s i, by_rfind_from P (str_len s) (rev s) = Some i <-> exists a c b, s = a ++ c :: b /\ P c = true /\ Forall (fun x => P x = false) b /\ i = str_len a.
Proof.
  intros P s i. induction s as [|x s IH] using rev_ind; [cbn; split; [discriminate|]; intros (a & c & b & E & _); destruct a; discriminate|].
  rewrite rev_unit. cbn [by_rfind_from]. assert (L : (str_len (s ++ [x]) - utf8_len x = str_len s)%nat) by (rewrite str_len_app; cbn [str_len]; lia). rewrite L. destruct (P x) eqn:E.
  - split; [intro H; injection H as <-; exists s, x, []; auto|]. intros (a & c & b & EQ & PC & F & ->). destruct b as [|y b _] using rev_ind.
    + apply app_inj_tail in EQ. now destruct EQ as [-> _].
    + rewrite app_comm_cons, app_assoc in EQ. apply app_inj_tail in EQ. destruct EQ as [_ ->]. apply Forall_app in F. destruct F as [_ F]. inversion F; congruence.
  - rewrite IH. split; intros (a & c & b & EQ & PC & F & ->).
    + exists a, c, (b ++ [x]). rewrite EQ, <- app_assoc. repeat split; auto. apply Forall_app; auto.
    + destruct b as [|y b _] using rev_ind.
      * apply app_inj_tail in EQ. destruct EQ as [_ ->]. congruence.
      * rewrite app_comm_cons, app_assoc in EQ. apply app_inj_tail in EQ. destruct EQ as [EQ ->]. apply Forall_app in F. destruct F as [F _]. exists a, c, b. auto.
Qed.
Lemma by_rfind_from_none : forall P s, by_rfind_from P (str_len s) (rev s) = None <-> Forall (fun x => P x = false) s.
Proof.
  intros P s. induction s as [|x s IH] using rev_ind; [cbn; split; [constructor|reflexivity]|].
  rewrite rev_unit. cbn [by_rfind_from]. assert (L : (str_len (s ++ [x]) - utf8_len x = str_len s)%nat) by (rewrite str_len_app; cbn [str_len]; lia). rewrite L, Forall_app. destruct (P x) eqn:E.
  - split; [discriminate|]. intros [_ F]. inversion F; congruence.
  - rewrite IH. split; [auto|]. now intros [F _].
Qed.
Theorem by_rfind_spec : forall P s, (forall i, by_rfind P s = Some i <-> exists a c b, s = a ++ c :: b /\ P c = true /\ Forall (fun x => P x = false) b /\ i = str_len a) /\
  (by_rfind P s = None <-> Forall (fun x => P x = false) s).
Proof. intros P s. split; [intro i; apply by_rfind_from_some|apply by_rfind_from_none]. Qed.
Theorem by_tests : forall P s, (by_contains P s = true <-> exists c, In c s /\ P c = true) /\
  (by_starts_with P s = true <-> exists c t, s = c :: t /\ P c = true) /\ (by_ends_with P s = true <-> exists t c, s = t ++ [c] /\ P c = true).
Proof.
  intros P s. split; [|split].
  - unfold by_contains. destruct (by_find P s) as [i|] eqn:E.
    + apply by_find_spec in E. destruct E as (a & c & b & -> & PC & _). split; [|reflexivity]. intros _. exists c. split; [apply in_elt|exact PC].
    + apply (proj2 (by_find_spec P s)) in E. rewrite Forall_forall in E. split; [discriminate|]. intros (c & K & PC). rewrite E in PC by exact K. discriminate.
  - destruct s as [|c t]; cbn; [split; [discriminate|intros (c & t & E & _); discriminate]|]. split; [eauto|]. intros (x & y & E & PX). now injection E as -> ->.
  - unfold by_ends_with. destruct (last_opt s) as [c|] eqn:E.
    + apply last_opt_some in E. destruct E as [t ->]. split; [eauto|]. intros (x & y & E & PX). apply app_inj_tail in E. now destruct E as [_ ->].
    + apply last_opt_none in E. subst s. split; [discriminate|]. intros (t & c & K & _). destruct t; discriminate.
Qed.
Lemma indices_in : forall s n x, In x (map fst (char_indices_from n s)) -> (n <= x)%nat.
Proof. induction s as [|c s IH]; intros n x K; [destruct K|]. destruct K as [<-|K]; [cbn; lia|]. apply IH in K. lia. Qed.
Lemma filter_sorted : forall P s n, StronglySorted lt (map fst (filter (fun x => P (snd x)) (char_indices_from n s))).
Proof.
  intros P. induction s as [|c s IH]; intro n; cbn [char_indices_from filter snd]; [constructor|]. destruct (P c); [|apply IH]. cbn [map fst]. constructor; [apply IH|].
  apply Forall_forall. intros i K. apply in_map_iff in K. destruct K as (y & <- & K). apply filter_In in K. destruct K as [K _]. apply (in_map fst) in K. apply indices_in in K. pose proof (utf8_len_pos c). lia.
Qed.
Theorem by_matches : forall P s l, by_match_indices P s = l <-> StronglySorted lt l /\ forall i, In i l <-> exists a c b, s = a ++ c :: b /\ P c = true /\ i = str_len a.
Proof.
  intros P s l. assert (B : forall i, In i (by_match_indices P s) <-> exists a c b, s = a ++ c :: b /\ P c = true /\ i = str_len a).
  { intro i. unfold by_match_indices. rewrite in_map_iff. split.
    - intros ([j c] & <- & K). apply filter_In in K. destruct K as [K PC]. apply char_indices_spec in K. destruct K as (a & b & E & L). exists a, c, b. cbn in *. auto.
    - intros (a & c & b & E & PC & ->). exists (str_len a, c). split; [reflexivity|]. apply filter_In. split; [|exact PC]. apply char_indices_spec. eauto. }
  split; [intros <-; split; [apply filter_sorted|exact B]|]. intros [SL H]. apply sorted_unique; [apply filter_sorted|exact SL|]. intro i. now rewrite B, H.
Qed.
Lemma filter_rev : forall A (f : A -> bool) l, filter f (rev l) = rev (filter f l).
Proof. intros A f l. induction l as [|x l IH]; [reflexivity|]. cbn. rewrite filter_app, IH. cbn. destruct (f x); [reflexivity|apply app_nil_r]. Qed.
Theorem by_rmatches : forall P s, by_rmatch_indices P s = rev (by_match_indices P s).
Proof. intros P s. unfold by_rmatch_indices, by_match_indices. now rewrite <- map_rev, filter_rev. Qed.
(** A char as a pattern is the string of it. *)
Theorem char_pattern : forall s c, scalars s -> scalars [c] -> by_find (N.eqb c) s = text_find s [c] /\ by_rfind (N.eqb c) s = text_rfind s [c] /\ by_match_indices (N.eqb c) s = text_match_indices s [c].
Proof.
  intros s c SS SC. assert (O : forall i, occurs_at [c] s i <-> exists a b, s = a ++ c :: b /\ i = str_len a) by (intro i; unfold occurs_at; split; intros (a & b & E & F); exists a, b; auto).
  assert (NI : forall x, Forall (fun y => N.eqb c y = false) x <-> ~ In c x).
  { intro x. rewrite Forall_forall. split; [intros H K; specialize (H _ K); rewrite N.eqb_refl in H; discriminate|]. intros H y K. apply N.eqb_neq. intros ->. contradiction. }
  split; [|split].
  - destruct (by_find (N.eqb c) s) as [i|] eqn:E; symmetry.
    + apply text_find_spec; auto. apply by_find_spec in E. destruct E as (a & x & b & E & PX & F & ->). apply N.eqb_eq in PX. subst x. split; [apply O; eauto|].
      intros j K. apply O in K. destruct K as (a' & b' & E' & ->). rewrite E in E'. apply NI in F. clear - F E'. revert a' E'. induction a as [|y a IH]; intros a' E; [cbn; lia|]. destruct a' as [|z a']; [injection E as -> _; destruct F; now left|].
      injection E as -> E. cbn [str_len]. specialize (IH (fun K => F (or_intror K)) _ E). lia.
    + apply text_find_none; auto. apply (proj2 (by_find_spec _ s)) in E. apply NI in E. intros i K. apply O in K. destruct K as (a & b & -> & _). apply E, in_elt.
  - destruct (by_rfind (N.eqb c) s) as [i|] eqn:E; symmetry.
    + apply text_rfind_spec; auto. apply by_rfind_spec in E. destruct E as (a & x & b & E & PX & F & ->). apply N.eqb_eq in PX. subst x. split; [apply O; eauto|].
      intros j K. apply O in K. destruct K as (a' & b' & E' & ->). rewrite E in E'. apply NI in F. destruct (le_lt_dec (str_len a') (str_len a)) as [L|L]; [exact L|exfalso]. clear - F E' L. revert a' E' L.
      induction a as [|y a IH]; intros a' E L; destruct a' as [|z a']; cbn [str_len] in L; try lia.
      * injection E as <- ->. apply F, in_elt.
      * injection E as -> E. apply (IH a' E). lia.
    + apply text_rfind_none; auto. apply (proj2 (by_rfind_spec _ s)) in E. apply NI in E. intros i K. apply O in K. destruct K as (a & b & -> & _). apply E, in_elt.
  - apply by_matches. split.
    + assert (G : forall t pos l, leftmost [c] t pos l -> StronglySorted lt l /\ Forall (fun i => (pos <= i)%nat) l).
      { intros t pos l H. induction H as [|a b pos l _ _ [IH1 IH2]]; [split; constructor|]. split; constructor; auto; try lia.
        - eapply Forall_impl; [|exact IH2]. intros i K. cbn [str_len] in K. pose proof (utf8_len_pos c). lia.
        - eapply Forall_impl; [|exact IH2]. intros i K. cbn [str_len] in K. lia. }
      exact (proj1 (G _ _ _ (match_indices_spec s [c] SS SC ltac:(discriminate)))).
    + intro i. split.
      * intro K. apply match_occurs in K; auto. apply O in K. destruct K as (a & b & E & ->). exists a, c, b. rewrite N.eqb_refl. auto.
      * intros (a & x & b & E & PX & ->). apply N.eqb_eq in PX. subst x.
        assert (G : forall t pos l, leftmost [c] t pos l -> forall a b, t = a ++ c :: b -> In (pos + str_len a)%nat l).
        { clear. intros t pos l H. induction H as [t pos N|a' b' pos l MIN _ IH]; intros a b E.
          - exfalso. apply (N (str_len a)). exists a, b. auto.
          - assert (D : str_len a' = str_len a \/ exists a2, a = a' ++ c :: a2).
            { assert (L : (str_len a' <= str_len a)%nat) by (apply MIN; exists a, b; auto). clear MIN IH. revert a E L. induction a' as [|y a' IH]; intros a E L.
              - destruct a as [|z a]; [now left|]. cbn in E. injection E as -> E. right. now exists a.
              - destruct a as [|z a]; [cbn [str_len] in L; pose proof (utf8_len_pos y); lia|]. cbn in E. injection E as -> E. cbn [str_len] in L. destruct (IH a E ltac:(lia)) as [Q|[a2 ->]]; [left; cbn [str_len]; lia|right; now exists a2]. }
            destruct D as [D|[a2 ->]]; [left; lia|]. right. rewrite <- app_assoc in E. apply app_inv_head in E. cbn in E. injection E as E. specialize (IH _ _ E). cbn [str_len] in IH. rewrite str_len_app. cbn [str_len].
            replace (pos + (str_len a' + (utf8_len c + str_len a2)))%nat with (pos + str_len a' + (utf8_len c + 0) + str_len a2)%nat by lia. exact IH. }
        exact (G _ _ _ (match_indices_spec s [c] SS SC ltac:(discriminate)) a b E).
Qed.
Theorem by_slices : forall P s i, substring_ok s -> In i (by_match_indices P s) ->
  exists a c b, s = a ++ c :: b /\ P c = true /\ index_to s i = Some a /\ index_from s i = Some (c :: b) /\ substring_ok a /\ substring_ok (c :: b).
Proof.
  intros P s i OK K. apply (proj2 (proj1 (by_matches P s _) eq_refl)) in K. destruct K as (a & c & b & E & PC & ->). exists a, c, b. split; [exact E|]. split; [exact PC|].
  assert (A : index_to s (str_len a) = Some a) by (apply index_to_iff; eauto). assert (B : index_from s (str_len a) = Some (c :: b)) by (apply index_from_iff; eauto).
  split; [exact A|]. split; [exact B|]. split; apply (index_valid s); eauto.
Qed.
