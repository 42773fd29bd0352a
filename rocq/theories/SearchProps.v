(** Comparison and search. *)
From Coq Require Import NArith Arith List Bool Lia ZifyBool ZifyNat ZifyN.
From Verif Require Import Base Chars SpecText Utf8 Utf8Facts Strings StringFacts StringProps JoinProps Search SpecSearch.
Import ListNotations.
Local Open Scope N_scope.
Arguments N.add : simpl never.
Arguments N.sub : simpl never.
Arguments N.mul : simpl never.
Arguments N.leb : simpl never.
Arguments N.ltb : simpl never.
Arguments N.eqb : simpl never.
Arguments N.div : simpl never.
Arguments N.modulo : simpl never.

(** * Order *)
Lemma cmp_refl : forall a, cmp_bytes a a = Eq.
Proof. induction a as [|x a IH]; [reflexivity|]. cbn. now rewrite N.compare_refl. Qed.
Lemma cmp_eq : forall a b, cmp_bytes a b = Eq <-> a = b.
Proof.
  split; [|intros ->; apply cmp_refl]. revert b. induction a as [|x a IH]; intros [|y b] H; try discriminate; [reflexivity|].
  cbn in H. destruct (N.compare_spec x y); try discriminate. subst y. now rewrite (IH b).
Qed.
Lemma cmp_antisym : forall a b, cmp_bytes b a = CompOpp (cmp_bytes a b).
Proof.
  induction a as [|x a IH]; intros [|y b]; try reflexivity. cbn. rewrite (N.compare_antisym x y). destruct (N.compare x y); cbn; auto.
Qed.
Lemma cmp_app : forall p a b, cmp_bytes (p ++ a) (p ++ b) = cmp_bytes a b.
Proof. induction p as [|x p IH]; intros a b; [reflexivity|]. cbn. now rewrite N.compare_refl. Qed.
Lemma cmp_trans : forall a b c, cmp_bytes a b = Lt -> cmp_bytes b c = Lt -> cmp_bytes a c = Lt.
Proof.
  induction a as [|x a IH]; intros [|y b] [|z c] H1 H2; try discriminate; try reflexivity. cbn in *.
  destruct (N.compare_spec x y) as [E1|L1|L1]; try discriminate; destruct (N.compare_spec y z) as [E2|L2|L2]; try discriminate;
    destruct (N.compare_spec x z); try reflexivity; try lia. apply (IH b c); assumption.
Qed.
Lemma encode_lt : forall c d x y, is_scalar c = true -> is_scalar d = true -> c < d -> cmp_bytes (encode c ++ x) (encode d ++ y) = Lt.
Proof.
  intros c d x y SC SD L. unfold is_scalar, in_range in *. assert (H1 : c <= 0x10FFFF) by lia. assert (H2 : d <= 0x10FFFF) by lia. clear SC SD. unfold encode.
  destruct (digits c) as (a & r0 & b & r1 & e & r2 & Hc & Ha & Hb & L0 & L1 & L2 & E1 & E2 & E3 & E4 & E5 & E6).
  destruct (digits d) as (a' & r0' & b' & r1' & e' & r2' & Hc' & Ha' & Hb' & L0' & L1' & L2' & E1' & E2' & E3' & E4' & E5' & E6').
  rewrite E2, E4, E6, E1, E3, E5, E2', E4', E6', E1', E3', E5'. clear E1 E2 E3 E4 E5 E6 E1' E2' E3' E4' E5' E6'.
  destruct (c <? 0x80) eqn:C1; destruct (d <? 0x80) eqn:D1; try lia; cbn [app cmp_bytes];
  try (destruct (c <? 0x800) eqn:C2); try (destruct (d <? 0x800) eqn:D2); try lia;
  try (destruct (c <? 0x10000) eqn:C3); try (destruct (d <? 0x10000) eqn:D3); try lia; cbn [app cmp_bytes];
  repeat match goal with |- context [N.compare ?a ?b] => destruct (N.compare_spec a b) end; try reflexivity; exfalso; lia.
Qed.
Lemma encode_nonnil : forall c, encode c <> [].
Proof. intro c. unfold encode. repeat destruct (_ <? _); discriminate. Qed.
Lemma before_lt : forall a b, scalars a -> scalars b -> before a b -> text_cmp a b = Lt.
Proof.
  intros a b SA SB [(c & t & ->)|(p & x & y & s & t & -> & -> & L)]; unfold text_cmp; rewrite !encode_all_app.
  - rewrite <- (app_nil_r (encode_all a)) at 1. rewrite cmp_app. cbn [encode_all flat_map]. destruct (encode c) eqn:E; [now apply encode_nonnil in E|reflexivity].
  - rewrite cmp_app. unfold scalars in *. rewrite Forall_app in *. destruct SA as [_ SA], SB as [_ SB]. inversion SA; inversion SB; subst. now apply encode_lt.
Qed.
Lemma before_total : forall a b, before a b \/ a = b \/ before b a.
Proof.
  induction a as [|x a IH]; intros [|y b].
  - auto.
  - left. left. now exists y, b.
  - right. right. left. now exists x, a.
  - destruct (N.lt_trichotomy x y) as [L|[->|L]].
    + left. right. now exists [], x, y, a, b.
    + destruct (IH b) as [H|[->|H]]; [left|auto|right; right].
      * destruct H as [(c & t & ->)|(p & u & v & s & t & -> & -> & L)]; [left; now exists c, t|right; now exists (y :: p), u, v, s, t].
      * destruct H as [(c & t & ->)|(p & u & v & s & t & -> & -> & L)]; [left; now exists c, t|right; now exists (y :: p), u, v, s, t].
    + right. right. right. now exists [], y, x, b, a.
Qed.
Theorem text_cmp_spec : forall a b, scalars a -> scalars b ->
  (text_cmp a b = Lt <-> before a b) /\ (text_cmp a b = Eq <-> a = b) /\ (text_cmp a b = Gt <-> before b a).
Proof.
  intros a b SA SB. assert (E : text_cmp a b = Eq <-> a = b).
  { unfold text_cmp. rewrite cmp_eq. split; [now apply encode_all_inj|now intros ->]. }
  assert (G : forall x y, scalars x -> scalars y -> before x y -> text_cmp y x = Gt).
  { intros x y SX SY B. unfold text_cmp. rewrite cmp_antisym. apply before_lt in B; auto. unfold text_cmp in B. now rewrite B. }
  split; [split|split; [exact E|split]]; intro H.
  - destruct (before_total a b) as [B|[->|B]]; [exact B|exfalso|exfalso].
    + rewrite (proj2 E eq_refl) in H. discriminate.
    + rewrite (G b a) in H by assumption. discriminate.
  - now apply before_lt.
  - destruct (before_total a b) as [B|[->|B]]; [exfalso|exfalso|exact B].
    + rewrite before_lt in H by assumption. discriminate.
    + rewrite (proj2 E eq_refl) in H. discriminate.
  - now apply G.
Qed.
Theorem text_cmp_trans : forall a b c, text_cmp a b <> Gt -> text_cmp b c <> Gt -> text_cmp a c <> Gt.
Proof.
  intros a b c H1 H2 H3. unfold text_cmp in *. destruct (cmp_bytes (encode_all a) (encode_all b)) eqn:E1; try congruence.
  - apply cmp_eq in E1. rewrite E1 in H3. congruence.
  - destruct (cmp_bytes (encode_all b) (encode_all c)) eqn:E2; try congruence.
    + apply cmp_eq in E2. rewrite <- E2 in H3. congruence.
    + rewrite (cmp_trans _ _ _ E1 E2) in H3. discriminate.
Qed.
Theorem text_eq_spec : forall a b, scalars a -> scalars b -> text_eq a b = true <-> a = b.
Proof.
  intros a b SA SB. unfold text_eq. rewrite list_eqb_eq. split; [now apply encode_all_inj|now intros ->].
Qed.

(** * Search in bytes *)
Lemma has_prefix_spec : forall p s, has_prefix p s = true <-> exists b, s = p ++ b.
Proof.
  induction p as [|x p IH]; intro s; cbn; [split; [intros _; now exists s|reflexivity]|].
  destruct s as [|y s]; [split; [discriminate|intros [b E]; discriminate]|]. rewrite andb_true_iff, N.eqb_eq, IH. split.
  - intros [-> [b ->]]. now exists b.
  - intros [b E]. injection E as -> ->. eauto.
Qed.
Definition at_byte (p s : list N) (i : nat) : Prop := exists x y, s = x ++ p ++ y /\ length x = i.
Lemma at_byte_0 : forall p s, at_byte p s 0 <-> has_prefix p s = true.
Proof.
  intros p s. rewrite has_prefix_spec. split.
  - intros ([|? ?] & y & -> & L); [now exists y|discriminate].
  - intros [b ->]. now exists [], b.
Qed.
Lemma at_byte_S : forall p s i, at_byte p s (S i) <-> exists c t, s = c :: t /\ at_byte p t i.
Proof.
  intros p s i. split.
  - intros ([|c x] & y & -> & L); [discriminate|]. exists c, (x ++ p ++ y). split; [reflexivity|]. exists x, y. cbn in L. split; [reflexivity|lia].
  - intros (c & t & -> & x & y & -> & L). exists (c :: x), y. cbn. split; [reflexivity|lia].
Qed.
Lemma find_bytes_spec : forall p s i, find_bytes p s = Some i <-> at_byte p s i /\ forall j, at_byte p s j -> (i <= j)%nat.
Proof.
  intros p. induction s as [|c s IH]; intro i.
  - cbn. destruct (has_prefix p []) eqn:E.
    + apply at_byte_0 in E. split; [intro H; injection H as <-; split; [exact E|lia]|]. intros [H K]. specialize (K 0%nat E). f_equal. lia.
    + split; [discriminate|]. intros [H _]. destruct i; [apply at_byte_0 in H; congruence|]. apply at_byte_S in H. destruct H as (? & ? & H & _). discriminate.
  - cbn [find_bytes]. destruct (has_prefix p (c :: s)) eqn:E.
    + apply at_byte_0 in E. split; [intro H; injection H as <-; split; [exact E|lia]|]. intros [H K]. specialize (K 0%nat E). f_equal. lia.
    + assert (NZ : ~ at_byte p (c :: s) 0) by (rewrite at_byte_0; congruence). split.
      * destruct (find_bytes p s) as [j|]; [|discriminate]. cbn. intro H. injection H as <-. destruct (proj1 (IH j) eq_refl) as [A B].
        split; [apply at_byte_S; eauto|]. intros [|k] K; [contradiction|]. apply at_byte_S in K. destruct K as (? & ? & K1 & K). injection K1 as <- <-. specialize (B _ K). lia.
      * intros [H K]. destruct i as [|i]; [contradiction|]. apply at_byte_S in H. destruct H as (? & ? & H1 & H). injection H1 as <- <-.
        rewrite (proj2 (IH i)); [reflexivity|]. split; [exact H|]. intros j J. specialize (K (S j) (proj2 (at_byte_S _ _ _) (ex_intro _ c (ex_intro _ s (conj eq_refl J))))). lia.
Qed.
Lemma find_bytes_none : forall p s, find_bytes p s = None <-> forall i, ~ at_byte p s i.
Proof.
  intros p s. destruct (find_bytes p s) as [i|] eqn:E.
  - split; [discriminate|]. intro H. apply find_bytes_spec in E. elim (H i). apply E.
  - split; [|reflexivity]. intros _ i H. revert i H E. induction s as [|c s IH]; intros i H E; cbn in E.
    + destruct (has_prefix p []) eqn:EP; [discriminate|]. destruct i; [apply at_byte_0 in H; congruence|]. apply at_byte_S in H. destruct H as (? & ? & H & _). discriminate.
    + destruct (has_prefix p (c :: s)) eqn:EP; [discriminate|]. destruct (find_bytes p s) eqn:EF; [discriminate|].
      destruct i; [apply at_byte_0 in H; congruence|]. apply at_byte_S in H. destruct H as (? & ? & H1 & H). injection H1 as <- <-. now apply (IH i).
Qed.
Lemma rfind_bytes_none : forall p s, rfind_bytes p s = None <-> forall i, ~ at_byte p s i.
Proof.
  intros p. induction s as [|c s IH]; cbn [rfind_bytes].
  - destruct (has_prefix p []) eqn:E.
    + split; [discriminate|]. intro H. elim (H 0%nat). now apply at_byte_0.
    + split; [|reflexivity]. intros _ [|i] H; [apply at_byte_0 in H; congruence|]. apply at_byte_S in H. destruct H as (? & ? & H & _). discriminate.
  - destruct (rfind_bytes p s) as [j|].
    + split; [discriminate|]. intro H. assert (K : forall i, ~ at_byte p s i) by (intros i A; apply (H (S i)); apply at_byte_S; eauto). apply IH in K. discriminate.
    + pose proof (proj1 IH eq_refl) as K. destruct (has_prefix p (c :: s)) eqn:E.
      * split; [discriminate|]. intro H. elim (H 0%nat). now apply at_byte_0.
      * split; [|reflexivity]. intros _ [|i] H; [apply at_byte_0 in H; congruence|]. apply at_byte_S in H. destruct H as (? & ? & H1 & H). injection H1 as <- <-. now apply (K i).
Qed.
Lemma rfind_bytes_spec : forall p s i, rfind_bytes p s = Some i <-> at_byte p s i /\ forall j, at_byte p s j -> (j <= i)%nat.
Proof.
  intros p. induction s as [|c s IH]; intro i.
  - cbn. assert (L : forall j, at_byte p [] j -> j = 0%nat) by (intros [|j] H; [reflexivity|]; apply at_byte_S in H; destruct H as (? & ? & H & _); discriminate).
    destruct (has_prefix p []) eqn:E.
    + apply at_byte_0 in E. split; [intro H; injection H as <-; split; [exact E|]; intros j J; rewrite (L j J); lia|]. intros [H K]. f_equal. symmetry. now apply L.
    + split; [discriminate|]. intros [H _]. rewrite (L _ H) in H. apply at_byte_0 in H. congruence.
  - cbn [rfind_bytes]. destruct (rfind_bytes p s) as [j|] eqn:ER.
    + destruct (proj1 (IH j) eq_refl) as [A B]. split.
      * intro H. injection H as <-. split; [apply at_byte_S; eauto|]. intros [|k] K; [lia|]. apply at_byte_S in K. destruct K as (? & ? & K1 & K). injection K1 as <- <-. specialize (B _ K). lia.
      * intros [H K]. assert (K2 := K (S j) (proj2 (at_byte_S _ _ _) (ex_intro _ c (ex_intro _ s (conj eq_refl A))))).
        destruct i as [|i]; [lia|]. apply at_byte_S in H. destruct H as (? & ? & H1 & H). injection H1 as <- <-. specialize (B _ H). f_equal. lia.
    + pose proof (proj1 (rfind_bytes_none p s) ER) as K. assert (L : forall j, at_byte p (c :: s) j -> j = 0%nat).
      { intros [|j] H; [reflexivity|]. apply at_byte_S in H. destruct H as (? & ? & H1 & H). injection H1 as <- <-. now elim (K j). }
      destruct (has_prefix p (c :: s)) eqn:E.
      * apply at_byte_0 in E. split; [intro H; injection H as <-; split; [exact E|]; intros j J; rewrite (L j J); lia|]. intros [H _]. f_equal. symmetry. now apply L.
      * split; [discriminate|]. intros [H _]. rewrite (L _ H) in H. apply at_byte_0 in H. congruence.
Qed.

(** * Bytes and characters *)
(** a byte that starts a character does so *)
Lemma split_at_char : forall s x b y, scalars s -> encode_all s = x ++ b :: y -> is_char_boundary b = true ->
  exists s1 s2, s = s1 ++ s2 /\ encode_all s1 = x /\ encode_all s2 = b :: y.
Proof.
  induction s as [|c s IH]; intros x b y S E B; [destruct x; discriminate|].
  inversion S as [|? ? SC SS]; subst. cbn [encode_all flat_map] in E. fold (encode_all s) in E.
  destruct (encode_shape c SC) as (h & t & EC & HB & HT). destruct x as [|h' x].
  - exists [], (c :: s). cbn [app] in *. auto.
  - rewrite EC in E. cbn [app] in E. injection E as <- E. apply app_eq_app in E. destruct E as [w [[E1 E2]|[E1 E2]]].
    + destruct w as [|b' w].
      * cbn [app] in E2. rewrite app_nil_r in E1. subst x. exists [c], s. cbn [encode_all flat_map app]. rewrite EC, app_nil_r. split; [reflexivity|]. split; [reflexivity|now symmetry].
      * exfalso. cbn [app] in E2. injection E2 as <- _. rewrite E1 in HT. apply Forall_app in HT. destruct HT as [_ HT]. inversion HT; congruence.
    + destruct (IH w b y SS E2 B) as (s1 & s2 & -> & <- & E3). exists (c :: s1), s2. cbn [encode_all flat_map app]. rewrite EC. cbn [app]. rewrite E1. auto.
Qed.
Lemma prefix_chars : forall p s y, scalars p -> scalars s -> encode_all s = encode_all p ++ y -> exists s', s = p ++ s' /\ encode_all s' = y.
Proof.
  induction p as [|c p IH]; intros s y SP SS E; [exists s; auto|].
  inversion SP as [|? ? PC PP]; subst. cbn [encode_all flat_map] in E. fold (encode_all p) in E. rewrite <- app_assoc in E.
  destruct s as [|d s]; [pose proof (encode_nonnil c); destruct (encode c); [congruence|discriminate]|].
  inversion SS as [|? ? DC DS]; subst. cbn [encode_all flat_map] in E. fold (encode_all s) in E.
  pose proof (decode1_encode d (encode_all s) DC) as K. rewrite E, decode1_encode in K by exact PC. injection K as <- K.
  destruct (IH s y PP DS (eq_sym K)) as (s' & -> & E'). exists s'. auto.
Qed.
(** an occurrence in the bytes is one in the characters *)
Lemma at_byte_occurs : forall p s i, scalars p -> scalars s -> p <> [] -> at_byte (encode_all p) (encode_all s) i <-> occurs_at p s i.
Proof.
  intros p s i SP SS NE. split.
  - intros (x & y & E & L). destruct p as [|c p]; [congruence|]. inversion SP as [|? ? PC _]; subst.
    destruct (encode_shape c PC) as (h & t & EC & HB & _). assert (EP : encode_all (c :: p) = h :: t ++ encode_all p) by (cbn [encode_all flat_map]; now rewrite EC).
    pose proof E as E0. rewrite EP in E. cbn [app] in E.
    destruct (split_at_char _ _ _ _ SS E HB) as (a & r & -> & <- & ER). unfold scalars in SS. apply Forall_app in SS. destruct SS as [SA SR].
    rewrite encode_all_app in E0. apply app_inv_head in E0. destruct (prefix_chars _ _ _ SP SR E0) as (b & -> & _).
    exists a, b. split; [reflexivity|]. now rewrite encode_all_length.
  - intros (a & b & -> & <-). exists (encode_all a), (encode_all b). rewrite !encode_all_app. split; [reflexivity|apply encode_all_length].
Qed.
Lemma occurs_empty : forall s i, occurs_at [] s i -> (i <= str_len s)%nat.
Proof. intros s i (a & b & -> & <-). rewrite !str_len_app. lia. Qed.

Theorem text_find_spec : forall s p i, scalars s -> scalars p -> text_find s p = Some i <-> occurs_at p s i /\ forall j, occurs_at p s j -> (i <= j)%nat.
Proof.
  intros s p i SS SP. unfold text_find. destruct p as [|c p].
  - cbn [encode_all flat_map]. assert (Z : occurs_at [] s 0) by (exists [], s; auto). assert (E : find_bytes [] (encode_all s) = Some 0%nat) by (destruct (encode_all s); reflexivity).
    rewrite E. split; [intro H; injection H as <-; split; [exact Z|lia]|]. intros [_ K]. specialize (K _ Z). f_equal. lia.
  - rewrite find_bytes_spec. rewrite at_byte_occurs by (auto; discriminate). split; intros [H K]; (split; [exact H|]); intros j J; apply K; revert J; apply at_byte_occurs; auto; discriminate.
Qed.
Theorem text_find_none : forall s p, scalars s -> scalars p -> text_find s p = None <-> forall i, ~ occurs_at p s i.
Proof.
  intros s p SS SP. split.
  - intros H i O. destruct p as [|c p]; [unfold text_find in H; cbn in H; destruct (encode_all s); discriminate|].
    unfold text_find in H. rewrite find_bytes_none in H. apply (H i). now apply at_byte_occurs.
  - intro H. destruct (text_find s p) as [i|] eqn:E; [|reflexivity]. apply text_find_spec in E; auto. elim (H i). apply E.
Qed.
Theorem text_contains_spec : forall s p, scalars s -> scalars p -> text_contains s p = true <-> exists a b, s = a ++ p ++ b.
Proof.
  intros s p SS SP. unfold text_contains. destruct (text_find s p) as [i|] eqn:E.
  - split; [|reflexivity]. intros _. apply text_find_spec in E; auto. destruct E as [(a & b & -> & _) _]. eauto.
  - split; [discriminate|]. intros (a & b & ->). rewrite text_find_none in E by auto. elim (E (str_len a)). now exists a, b.
Qed.
Theorem text_rfind_spec : forall s p i, scalars s -> scalars p -> text_rfind s p = Some i <-> occurs_at p s i /\ forall j, occurs_at p s j -> (j <= i)%nat.
Proof.
  intros s p i SS SP. unfold text_rfind. destruct p as [|c p].
  - cbn [encode_all flat_map]. assert (Z : occurs_at [] s (str_len s)) by (exists s, []; cbn; now rewrite app_nil_r).
    assert (E : forall l, rfind_bytes [] l = Some (length l)) by (induction l as [|x l IH]; [reflexivity|]; cbn [rfind_bytes]; now rewrite IH).
    rewrite E, encode_all_length. split; [intro H; injection H as <-; split; [exact Z|]; intros j; apply occurs_empty|]. intros [H K]. specialize (K _ Z). apply occurs_empty in H. f_equal. lia.
  - rewrite rfind_bytes_spec. rewrite at_byte_occurs by (auto; discriminate). split; intros [H K]; (split; [exact H|]); intros j J; apply K; revert J; apply at_byte_occurs; auto; discriminate.
Qed.
Theorem text_rfind_none : forall s p, scalars s -> scalars p -> text_rfind s p = None <-> forall i, ~ occurs_at p s i.
Proof.
  intros s p SS SP. split.
  - intros H i O. destruct p as [|c p].
    + unfold text_rfind in H. rewrite rfind_bytes_none in H. apply (H 0%nat). exists [], (encode_all s). auto.
    + unfold text_rfind in H. rewrite rfind_bytes_none in H. apply (H i). now apply at_byte_occurs.
  - intro H. destruct (text_rfind s p) as [i|] eqn:E; [|reflexivity]. apply text_rfind_spec in E; auto. elim (H i). apply E.
Qed.
Theorem text_starts_with_spec : forall s p, scalars s -> scalars p -> text_starts_with s p = true <-> exists b, s = p ++ b.
Proof.
  intros s p SS SP. unfold text_starts_with. rewrite has_prefix_spec. split.
  - intros [y E]. destruct (prefix_chars _ _ _ SP SS E) as (b & -> & _). eauto.
  - intros [b ->]. rewrite encode_all_app. eauto.
Qed.
Theorem text_ends_with_spec : forall s p, scalars s -> scalars p -> text_ends_with s p = true <-> exists a, s = a ++ p.
Proof.
  intros s p SS SP. unfold text_ends_with. rewrite has_prefix_spec. split.
  - intros [y E]. apply (f_equal (@rev N)) in E. rewrite rev_involutive, rev_app_distr, rev_involutive in E.
    destruct p as [|c p]; [exists s; now rewrite app_nil_r|]. 
    assert (A : at_byte (encode_all (c :: p)) (encode_all s) (length (rev y))) by (exists (rev y), []; now rewrite app_nil_r).
    apply at_byte_occurs in A; [|assumption|assumption|discriminate]. destruct A as (a & b & -> & L). exists a.
    apply (f_equal (@length N)) in E. rewrite app_length, !encode_all_length, !str_len_app, L in E. assert (Z : str_len b = 0%nat) by lia.
    destruct b as [|d b]; [now rewrite app_nil_r|]. cbn [str_len] in Z. pose proof (utf8_len_pos d). lia.
  - intros [a ->]. rewrite encode_all_app, rev_app_distr. eauto.
Qed.

(** * All matches *)
Lemma matches_skip : forall p k s pos, (k <= length s)%nat -> matches_go p s k pos = matches_go p (skipn k s) 0 (pos + k).
Proof.
  intros p k. induction k as [|k IH]; intros s pos L; [cbn; now rewrite Nat.add_0_r|].
  destruct s as [|c s]; [cbn in L; lia|]. cbn [matches_go skipn]. rewrite IH by (cbn in L; lia). f_equal. lia.
Qed.
Lemma matches_find : forall p s pos, p <> [] -> matches_go p s 0 pos =
  match find_bytes p s with Some i => (pos + i)%nat :: matches_go p (skipn (i + length p) s) 0 (pos + i + length p) | None => [] end.
Proof.
  intros p s pos NE. revert pos. induction s as [|c s IH]; intro pos.
  - destruct p; [congruence|]. reflexivity.
  - cbn [matches_go find_bytes]. destruct (has_prefix p (c :: s)) eqn:E.
    + apply has_prefix_spec in E. destruct E as [b E]. destruct p as [|d p]; [congruence|]. injection E as -> E.
      rewrite matches_skip by (rewrite E, app_length; cbn [length]; lia). rewrite Nat.add_0_r. f_equal. cbn [length Nat.add skipn]. replace (S (length p) - 1)%nat with (length p) by lia. f_equal. lia.
    + rewrite IH. destruct (find_bytes p s) as [i|]; [|reflexivity]. cbn [option_map]. replace (S pos + i)%nat with (pos + S i)%nat by lia. reflexivity.
Qed.
Lemma matches_leftmost : forall p n s pos, scalars p -> p <> [] -> scalars s -> (length s <= n)%nat -> leftmost p s pos (matches_go (encode_all p) (encode_all s) 0 pos).
Proof.
  intros p n. induction n as [|n IH]; intros s pos SP NE SS L.
  - destruct s; [|cbn in L; lia]. apply no_more. intros i (a & b & E & _). destruct a; [|discriminate]. destruct p; [congruence|discriminate].
  - rewrite matches_find by (destruct p as [|c p]; [congruence|]; cbn [encode_all flat_map]; pose proof (encode_nonnil c); destruct (encode c); [congruence|discriminate]).
    fold (text_find s p). destruct (text_find s p) as [i|] eqn:E.
    + apply text_find_spec in E; auto. destruct E as [(a & b & -> & <-) K].
      assert (EB : skipn (str_len a + length (encode_all p)) (encode_all (a ++ p ++ b)) = encode_all b).
      { rewrite !encode_all_app, encode_all_length, <- (encode_all_length a), <- (encode_all_length p).
        rewrite app_assoc, <- app_length, skipn_app, skipn_all, Nat.sub_diag. reflexivity. }
      rewrite EB, encode_all_length. apply next_match; [exact K|]. apply IH; auto.
      * unfold scalars in *. rewrite !Forall_app in SS. apply SS.
      * rewrite !app_length in L. destruct p; [congruence|]. cbn [length] in L. lia.
    + apply no_more. now apply text_find_none.
Qed.
Theorem match_indices_spec : forall s p, scalars s -> scalars p -> p <> [] -> leftmost p s 0 (text_match_indices s p).
Proof. intros s p SS SP NE. unfold text_match_indices. destruct p; [congruence|]. apply matches_leftmost with (n := length s); auto. Qed.
Lemma same_prefix : forall a b x y, a ++ x = b ++ y -> str_len a = str_len b -> a = b /\ x = y.
Proof.
  induction a as [|c a IH]; intros [|d b] x y E L.
  - auto.
  - cbn in L. pose proof (utf8_len_pos d). lia.
  - cbn in L. pose proof (utf8_len_pos c). lia.
  - injection E as <- E. cbn in L. destruct (IH b x y E) as [-> ->]; [lia|auto].
Qed.
Theorem leftmost_unique : forall p s pos l1 l2, leftmost p s pos l1 -> leftmost p s pos l2 -> l1 = l2.
Proof.
  intros p s pos l1 l2 H. revert l2. induction H as [s pos H|a b pos l K H IH]; intros l2 H2.
  - inversion H2 as [|a' b' ? l' K' H' E]; subst; [reflexivity|]. elim (H (str_len a')). now exists a', b'.
  - inversion H2 as [? ? N'|a' b' ? l' K' H' E]; subst.
    + elim (N' (str_len a)). now exists a, b.
    + assert (L1 : (str_len a <= str_len a')%nat) by (apply K; now exists a', b').
      assert (L2 : (str_len a' <= str_len a)%nat) by (apply K'; now exists a, b).
      destruct (same_prefix a' a _ _ E) as [-> E2]; [lia|]. apply app_inv_head in E2. subst b'. f_equal. now apply IH.
Qed.

(** Slicing around a match. *)
Theorem found_slices : forall s p i, scalars s -> scalars p -> text_find s p = Some i \/ text_rfind s p = Some i ->
  exists a b, s = a ++ p ++ b /\ index_to s i = Some a /\ index_from s (i + str_len p) = Some b /\ index s i (i + str_len p) = Some p.
Proof.
  intros s p i SS SP H. assert (O : occurs_at p s i) by (destruct H as [H|H]; [apply text_find_spec in H|apply text_rfind_spec in H]; auto; apply H).
  destruct O as (a & b & -> & <-). exists a, b. split; [reflexivity|]. split; [apply index_to_iff; eauto|]. split.
  - apply index_from_iff. exists (a ++ p). rewrite <- app_assoc, str_len_app. auto.
  - apply index_iff. exists a, b. now rewrite str_len_app.
Qed.
Theorem found_valid : forall s p i, substring_ok s -> scalars s -> scalars p -> text_find s p = Some i \/ text_rfind s p = Some i ->
  exists a b, index_to s i = Some a /\ index_from s (i + str_len p) = Some b /\ substring_ok a /\ substring_ok p /\ substring_ok b.
Proof.
  intros s p i OK SS SP H. destruct (found_slices s p i SS SP H) as (a & b & _ & A & B & P). exists a, b. split; [exact A|]. split; [exact B|].
  split; [|split]; apply (index_valid s); eauto.
Qed.

(** * Lines *)
Lemma last_opt_In : forall (l : list N) c, last_opt l = Some c -> In c l.
Proof.
  induction l as [|x l IH]; intros c H; [discriminate|]. destruct l as [|y l]; [injection H as <-; now left|].
  right. apply IH. exact H.
Qed.
Lemma str_lines_no_lf : forall s cur, ~ In LF cur -> ~ In CR cur -> ~ In CR s -> 
  Forall (fun l => ~ In LF l) (str_lines_go s cur) /\
  (cur ++ s = flat_map (fun l => l ++ [LF]) (str_lines_go s cur) \/
   exists init last, str_lines_go s cur = init ++ [last] /\ last <> [] /\ cur ++ s = flat_map (fun l => l ++ [LF]) init ++ last).
Proof.
  induction s as [|c s IH]; intros cur NL NC NS; cbn [str_lines_go].
  - rewrite app_nil_r. destruct cur as [|d cur].
    + split; [constructor|]. now left.
    + split; [constructor; [exact NL|constructor]|]. right. exists [], (d :: cur). split; [reflexivity|]. split; [discriminate|reflexivity].
  - assert (NS2 : ~ In CR s) by (intro K; apply NS; now right). destruct (N.eqb_spec c LF) as [->|NE].
    + destruct (IH [] (fun x => x) (fun x => x) NS2) as [A B]. assert (EC : chomp_cr cur = cur).
      { unfold chomp_cr. destruct (last_opt cur) as [d|] eqn:EL; [|reflexivity]. destruct (N.eqb_spec d CR) as [->|_]; [|reflexivity]. exfalso. apply NC. now apply last_opt_In. }
      rewrite EC. split; [now constructor|]. cbn [app] in B. destruct B as [B|(init & last & E1 & E2 & E3)].
      * left. cbn [flat_map]. rewrite <- B, <- app_assoc. reflexivity.
      * right. exists (cur :: init), last. rewrite E1, E3. split; [reflexivity|]. split; [exact E2|]. cbn [flat_map]. now rewrite <- !app_assoc.
    + destruct (IH (cur ++ [c])) as [A B].
      * rewrite in_app_iff. intros [K|[K|[]]]; [contradiction|congruence].
      * rewrite in_app_iff. intros [K|[K|[]]]; [contradiction|]. apply NS. now left.
      * exact NS2.
      * rewrite <- app_assoc in B. cbn [app] in B. auto.
Qed.
Lemma no_lf_app : forall l t x y, ~ In LF l -> ~ In LF t -> l ++ LF :: x = t ++ LF :: y -> l = t /\ x = y.
Proof.
  induction l as [|c l IH]; intros [|d t] x y NL NT E.
  - injection E as E. auto.
  - injection E as E _. elim NT. now left.
  - injection E as E _. elim NL. now left.
  - injection E as <- E. destruct (IH t x y) as [-> ->]; auto; intro K; [apply NL|apply NT]; now right.
Qed.
Lemma no_lf_rest : forall l x t, ~ In LF t -> l ++ LF :: x <> t.
Proof. intros l x t NT E. apply NT. rewrite <- E, in_app_iff. right. now left. Qed.
Lemma lines_unique : forall a b s, lines_of s a -> lines_of s b -> a = b.
Proof.
  induction a as [|l a IH]; intros b s [FA HA] [FB HB].
  - assert (ES : s = []) by (destruct HA as [->|(init & last & E & _)]; [reflexivity|destruct init; discriminate]). subst s.
    destruct HB as [HB|(init & last & -> & NE & HB)].
    + destruct b as [|t b]; [reflexivity|]. destruct t; discriminate.
    + destruct init as [|t init]; [cbn in HB; congruence|]. destruct t; discriminate.
  - inversion FA as [|? ? NL FA2]; subst.
    assert (CA : (exists r, s = l ++ LF :: r /\ lines_of r a) \/ (a = [] /\ s = l /\ l <> [])).
    { destruct HA as [->|(init & last & E & NE & ->)].
      - left. exists (flat_map (fun l => l ++ [LF]) a). cbn [flat_map]. rewrite <- app_assoc. split; [reflexivity|]. split; [exact FA2|now left].
      - destruct init as [|t init]; injection E as -> E.
        + right. subst a. auto.
        + left. exists (flat_map (fun l => l ++ [LF]) init ++ last). cbn [flat_map]. rewrite <- !app_assoc. split; [reflexivity|]. split; [exact FA2|]. right. exists init, last. auto. }
    destruct b as [|t b].
    { exfalso. assert (ES : s = []) by (destruct HB as [->|(init & last & E & _)]; [reflexivity|destruct init; discriminate]).
      destruct CA as [(r & E & _)|(_ & E & NE)]; [rewrite ES in E; destruct l; discriminate|congruence]. }
    inversion FB as [|? ? NT FB2]; subst.
    assert (CB : (exists r, s = t ++ LF :: r /\ lines_of r b) \/ (b = [] /\ s = t /\ t <> [])).
    { destruct HB as [->|(init & last & E & NE & ->)].
      - left. exists (flat_map (fun l => l ++ [LF]) b). cbn [flat_map]. rewrite <- app_assoc. split; [reflexivity|]. split; [exact FB2|now left].
      - destruct init as [|t' init]; injection E as -> E.
        + right. subst b. auto.
        + left. exists (flat_map (fun l => l ++ [LF]) init ++ last). cbn [flat_map]. rewrite <- !app_assoc. split; [reflexivity|]. split; [exact FB2|]. right. exists init, last. auto. }
    destruct CA as [(r & E & LA)|(-> & -> & NE)], CB as [(r' & E' & LB)|(-> & E' & NE')].
    + rewrite E in E'. apply no_lf_app in E'; auto. destruct E' as [-> ->]. f_equal. now apply (IH b r').
    + exfalso. rewrite E in E'. now apply no_lf_rest in E'.
    + exfalso. symmetry in E'. now apply no_lf_rest in E'.
    + now subst.
Qed.
Theorem str_lines_spec : forall s ls, ~ In CR s -> str_lines s = ls <-> lines_of s ls.
Proof.
  intros s ls NC. assert (H : lines_of s (str_lines s)) by (apply (str_lines_no_lf s []); auto). split; [now intros <-|]. intro H2. now apply (lines_unique _ _ s).
Qed.
Lemma line_slice : forall ls l, In l ls -> exists a b, flat_map (fun l => l ++ [LF]) ls = a ++ l ++ b.
Proof.
  intros ls l I. apply in_split in I. destruct I as (u & v & ->). exists (flat_map (fun l => l ++ [LF]) u), (LF :: flat_map (fun l => l ++ [LF]) v).
  rewrite flat_map_app. cbn [flat_map]. now rewrite <- !app_assoc.
Qed.
Lemma sub_no_cr : forall s, substring_ok s -> ~ In CR s.
Proof. intros s (_ & _ & F) I. rewrite Forall_forall in F. specialize (F CR I). vm_compute in F. discriminate. Qed.
Theorem lines_valid : forall s, substring_ok s -> lines_of s (str_lines s) /\ Forall substring_ok (str_lines s) /\
  forall l, In l (str_lines s) -> string_ok l <-> starts_ok l /\ ends_ok l.
Proof.
  intros s OK. pose proof (proj1 (str_lines_spec s _ (sub_no_cr s OK)) eq_refl) as H. split; [exact H|].
  assert (V : Forall substring_ok (str_lines s)).
  { apply Forall_forall. intros l I. assert (E : exists a b, s = a ++ l ++ b).
    { destruct H as [_ [E|(init & last & E1 & _ & E)]].
      - destruct (line_slice _ l I) as (a & b & K). rewrite K in E. eauto.
      - rewrite E1, in_app_iff in I. destruct I as [I|[->|[]]].
        + destruct (line_slice _ l I) as (a & b & K). rewrite K, <- !app_assoc in E. eauto.
        + exists (flat_map (fun l => l ++ [LF]) init), []. now rewrite app_nil_r. }
    destruct E as (a & b & ->). apply (index_valid (a ++ l ++ b)); [exact OK|]. left. exists (str_len a), (str_len (a ++ l)). apply index_some. }
  split; [exact V|]. intros l I. rewrite Forall_forall in V. specialize (V l I). unfold string_ok. tauto.
Qed.
