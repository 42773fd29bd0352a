(** Concatenation, repetition, trimming and slicing of strings. *)
From Coq Require Import NArith Arith List Bool Lia ZifyBool ZifyNat ZifyN.
From Verif Require Import Base Ucd UcdTables Norm Chars TextTables TextUtils UcdFacts NormFacts CharFacts DocTable SpecText TextFacts PipelineFacts
  Utf8 Utf8Facts Input Output ReadFacts Strings StringFacts ConcatFacts SpecString StringProps.
Import ListNotations.
Local Open Scope N_scope.
Arguments N.add : simpl never.
Arguments N.leb : simpl never.
Arguments N.ltb : simpl never.
Arguments N.eqb : simpl never.
Local Opaque pipeline.

Transparent compose.
Lemma hangul_compose : forall x c, hangul_join x c -> compose x c <> None.
Proof.
  intros x c H. unfold compose. assert (E : compose_hangul x c <> None); [|destruct (compose_hangul x c); [discriminate|congruence]].
  unfold compose_hangul. unfold hangul_join, in_range, L_BASE, L_COUNT, V_BASE, V_COUNT, S_BASE, S_COUNT, T_BASE, T_COUNT in *.
  destruct H as [H|(H1 & H2 & H3)].
  - match goal with |- (if ?b then _ else _) <> None => assert (b = true) as -> by lia end. discriminate.
  - match goal with |- (if ?b then _ else _) <> None => destruct b; [discriminate|] end. rewrite H2.
    match goal with |- (if ?b then _ else _) <> None => assert (b = true) as -> by lia end. discriminate.
Qed.
Global Opaque compose.
Lemma start_joins : forall x c, is_basic_text_start c = true -> compose x c = None <-> ~ hangul_join x c.
Proof.
  intros x c HS. split.
  - intros E H. now apply hangul_compose in H.
  - intro H. destruct (compose x c) as [r|] eqn:E; [exfalso; apply H; clear H|reflexivity].
    destruct (compose_inv _ _ _ E) as [(H1 & H2 & _)|[(H1 & H2 & H3 & _)|H1]].
    + left. unfold in_range, L_BASE, L_COUNT, V_BASE, V_COUNT in *. lia.
    + right. unfold in_range, S_BASE, S_COUNT, T_BASE, T_COUNT in *. split; [lia|]. split; [exact H3|lia].
    + exfalso. destruct (start_second _ _ _ HS E) as [_ HT]. apply (comp_lift comp_second_start chk_comp_second) in H1. unfold comp_second_start in H1. now rewrite HS in H1.
Qed.
Lemma seam_joined : forall a b, starts_ok b -> seam_ok a b <-> ~ joined a b.
Proof.
  intros a b HS. unfold seam_ok, joined. split.
  - intros H (t & x & c & u & EA & EB & J). pose proof (H _ _ _ _ EA EB) as E. apply start_joins in E; [contradiction|]. rewrite EB in HS. exact (HS _ _ eq_refl).
  - intros H t x c u EA EB. apply start_joins; [rewrite EB in HS; exact (HS _ _ eq_refl)|]. intro J. apply H. exists t, x, c, u. auto.
Qed.
Lemma cgj_not_joined : forall a b, joined a b -> forall u, b <> CGJ :: u.
Proof. intros a b (t & x & c & u & _ & -> & J) u' E. injection E as -> _. unfold hangul_join, CGJ in J. lia. Qed.

(** * Concatenation *)
Lemma app_ok : forall a b, string_ok a -> string_ok b -> string_ok (a ++ b) <-> ~ joined a b.
Proof.
  intros a b HA HB. pose proof HA as HA'. pose proof HB as HB'. apply basic_text_spec, basic_text_iff in HA', HB'.
  destruct HA' as (A1 & A2 & A3), HB' as (B1 & B2 & B3). apply substr_ok_iff in A1, B1. destruct A1 as [CA NA], B1 as [CB NB].
  pose proof (proj1 (starts_ok_iff b) B2) as SB. rewrite <- (seam_joined a b SB), <- (seam_iff a b SB NA NB).
  rewrite <- basic_text_spec, basic_text_iff, substr_ok_iff. split; [tauto|]. intro N. split; [split; [now apply Forall_app|exact N]|]. split.
  - destruct a; [exact B2|exact A2].
  - destruct b; [rewrite app_nil_r; exact A3|]. rewrite last_opt_app by discriminate. exact B3.
Qed.
Lemma cgj_app_ok : forall a b, string_ok (a ++ [CGJ]) -> string_ok (CGJ :: b) -> string_ok ((a ++ [CGJ]) ++ b).
Proof.
  intros a b HA HB. pose proof HA as HA'. pose proof HB as HB'. apply basic_text_spec, basic_text_iff in HA', HB'.
  destruct HA' as (A1 & A2 & A3), HB' as (B1 & B2 & B3). apply substr_ok_iff in A1, B1. destruct A1 as [CA NA], B1 as [CB NB].
  apply basic_text_spec, basic_text_iff. split; [|split].
  - apply substr_ok_iff. split; [apply Forall_app; split; [exact CA|now inversion CB]|]. apply nfc_ss_join; [exact boring_CGJ|exact NA|].
    apply (nfc_ss_app [CGJ] b) in NB. tauto.
  - destruct a; exact A2.
  - destruct b as [|c b]; [rewrite app_nil_r; exact A3|]. rewrite last_opt_app by discriminate. exact B3.
Qed.
Theorem push_text_ok : forall a b, string_ok a -> string_ok b -> string_ok (push_text a b) <-> ~ joined a b.
Proof.
  intros a b HA HB. destruct b as [|c b]; cbn [push_text].
  { split; [|auto]. intros _ (t & x & c & u & _ & E & _). discriminate. }
  destruct (c =? CGJ) eqn:EC; cbn [andb]; [|now apply app_ok].
  destruct (last_opt a) as [l|] eqn:EL; [|now apply app_ok]. destruct (l =? CGJ) eqn:EL2; [|now apply app_ok].
  apply N.eqb_eq in EC, EL2. subst c l. apply last_opt_some in EL. destruct EL as [t ->].
  split; [|intros _; now apply cgj_app_ok]. intros _ J. exact (cgj_not_joined _ _ J b eq_refl).
Qed.
(** Extend: valid when no two neighbours join (empty strings are skipped) *)
Fixpoint none_joined (a : list N) (l : list (list N)) : Prop :=
  match l with [] => True | b :: t => ~ joined a b /\ none_joined (push_text a b) t end.
Theorem extend_ok : forall l a, string_ok a -> Forall string_ok l -> none_joined a l -> string_ok (extend a l).
Proof.
  induction l as [|b l IH]; intros a HA HL HJ; [exact HA|]. inversion HL; subst. destruct HJ as [J1 J2]. unfold extend. cbn [fold_left].
  apply IH; auto. now apply push_text_ok.
Qed.
(** if no string starts with a Hangul vowel or trailing consonant nothing joins *)
Definition no_hangul_tail (b : list N) : Prop := forall c u, b = c :: u -> ~ (0x1161 <= c <= 0x1175 \/ 0x11A8 <= c <= 0x11C2).
Lemma tail_not_joined : forall a b, no_hangul_tail b -> ~ joined a b.
Proof. intros a b H (t & x & c & u & _ & -> & J). apply (H c u eq_refl). unfold hangul_join in J. lia. Qed.
Theorem push_text_closed : forall a b, string_ok a -> string_ok b -> no_hangul_tail b -> string_ok (push_text a b).
Proof. intros a b HA HB H. apply push_text_ok; auto. now apply tail_not_joined. Qed.
Theorem extend_closed : forall a l, string_ok a -> Forall string_ok l -> Forall no_hangul_tail l -> string_ok (extend a l).
Proof.
  intros a l HA HL HT. apply extend_ok; auto. clear HA. revert a. induction HT as [|b l HB HT IH]; intro a; [exact I|]. inversion HL; subst.
  split; [now apply tail_not_joined|now apply IH].
Qed.

(** * Repetition *)
Lemma repeat_ok_go : forall s n, string_ok s -> ~ joined s s -> string_ok (repeat_text s n).
Proof.
  intros s n H J. induction n as [|n IH]; cbn [repeat_text].
  - apply basic_text_spec. reflexivity.
  - apply app_ok; auto. destruct n as [|n]; [intros (t & x & c & u & _ & E & _); discriminate|].
    cbn [repeat_text]. intros (t & x & c & u & EA & EB & HJ). apply J. destruct s as [|d s]; [destruct t; discriminate|].
    injection EB as -> _. exists t, x, c, s. auto.
Qed.
Theorem repeat_text_ok : forall s n, string_ok s -> string_ok (repeat_text s n) <-> (n <= 1)%nat \/ ~ joined s s.
Proof.
  intros s n H. split.
  - intro R. destruct (Nat.le_gt_cases n 1) as [L|L]; [now left|right]. destruct n as [|[|n]]; try lia. cbn [repeat_text] in R.
    rewrite app_assoc in R. apply app_ok; auto. split; [|split].
    + destruct R as [R _]. apply substr_spec. apply substr_spec in R. now apply substr_app in R.
    + intros c t E. destruct R as (_ & R & _). apply (R c (t ++ repeat_text s n)). now rewrite E.
    + apply ends_ok_iff. destruct H as (_ & _ & HE). apply ends_ok_iff in HE. destruct s; [exact HE|]. now rewrite last_opt_app by discriminate.
  - intros [L|J]; [|now apply repeat_ok_go]. destruct n as [|[|n]]; [apply basic_text_spec; reflexivity|cbn; now rewrite app_nil_r|lia].
Qed.
Theorem repeat_closed : forall s n, string_ok s -> no_hangul_tail s -> string_ok (repeat_text s n).
Proof. intros s n H T. apply repeat_text_ok; auto. right. now apply tail_not_joined. Qed.

(** * Trimming *)
Lemma trim_start_slice : forall s, exists a, s = a ++ trim_start s /\ Forall (fun c => is_whitespace c = true) a.
Proof.
  induction s as [|c s [a [E F]]]; [now exists []|]. cbn [trim_start]. destruct (is_whitespace c) eqn:EW; [|now exists []].
  exists (c :: a). split; [cbn; congruence|]. now constructor.
Qed.
Lemma trim_end_slice : forall s, exists b, s = trim_end s ++ b /\ Forall (fun c => is_whitespace c = true) b.
Proof.
  intro s. destruct (trim_start_slice (rev s)) as [a [E F]]. exists (rev a). unfold trim_end. split.
  - rewrite <- rev_app_distr, <- E. now rewrite rev_involutive.
  - apply Forall_forall. intros x HX. apply in_rev in HX. rewrite Forall_forall in F. now apply F.
Qed.
Lemma trim_slice : forall s, exists a b, s = a ++ trim s ++ b /\ Forall (fun c => is_whitespace c = true) a /\ Forall (fun c => is_whitespace c = true) b.
Proof.
  intro s. destruct (trim_start_slice s) as (a & E & FA). destruct (trim_end_slice (trim_start s)) as (b & E2 & FB). exists a, b. unfold trim. rewrite <- E2. auto.
Qed.
(** … and nothing more can be trimmed *)
Lemma trim_start_head : forall s c t, trim_start s = c :: t -> is_whitespace c = false.
Proof.
  induction s as [|x s IH]; intros c t E; [discriminate|]. cbn [trim_start] in E. destruct (is_whitespace x) eqn:EW; [eauto|]. now injection E as <- _.
Qed.
Lemma trim_end_last : forall s t c, trim_end s = t ++ [c] -> is_whitespace c = false.
Proof. intros s t c E. unfold trim_end in E. apply (f_equal (@rev N)) in E. rewrite rev_involutive, rev_app_distr in E. cbn in E. exact (trim_start_head _ _ _ E). Qed.
(** [is_whitespace] is White_Space *)
Lemma whitespace_spec : forall c, is_whitespace c = true <-> white_space c.
Proof.
  intro c. unfold white_space. split.
  - unfold is_whitespace, in_ranges. cbn [existsb fst snd orb]. intro H. repeat apply Bool.orb_true_iff in H as [H|H]; try discriminate H;
    unfold in_range in H; apply andb_true_iff in H as [H1 H2]; apply N.leb_le in H1, H2; cbn [fst snd] in *; cbn [In]; lia.
  - intro H. cbn [In] in H. repeat (destruct H as [<-|H]; [vm_compute; reflexivity|]). contradiction.
Qed.
Lemma white_all : forall a, Forall (fun c => is_whitespace c = true) a -> Forall white_space a.
Proof. intros a F. eapply Forall_impl; [|exact F]. intros c H. now apply whitespace_spec. Qed.
Lemma white_not : forall c, is_whitespace c = false -> ~ white_space c.
Proof. intros c H W. apply whitespace_spec in W. congruence. Qed.
Theorem trim_removes : forall s,
  (exists a, s = a ++ trim_start s /\ Forall white_space a /\ forall c t, trim_start s = c :: t -> ~ white_space c) /\
  (exists b, s = trim_end s ++ b /\ Forall white_space b /\ forall t c, trim_end s = t ++ [c] -> ~ white_space c) /\
  (exists a b, s = a ++ trim s ++ b /\ Forall white_space a /\ Forall white_space b /\
     (forall c t, trim s = c :: t -> ~ white_space c) /\ (forall t c, trim s = t ++ [c] -> ~ white_space c)).
Proof.
  intro s. destruct (trim_start_slice s) as (a & EA & FA). destruct (trim_end_slice s) as (b & EB & FB). destruct (trim_end_slice (trim_start s)) as (b2 & E2 & F2).
  split; [|split].
  - exists a. split; [exact EA|]. split; [now apply white_all|]. intros c t E. apply white_not. now apply trim_start_head in E.
  - exists b. split; [exact EB|]. split; [now apply white_all|]. intros t c E. apply white_not. now apply trim_end_last in E.
  - exists a, b2. unfold trim. split; [now rewrite <- E2|]. split; [now apply white_all|]. split; [now apply white_all|]. split.
    + intros c t E. apply white_not. rewrite E in E2. cbn in E2. now apply trim_start_head in E2.
    + intros t c E. apply white_not. now apply trim_end_last in E.
Qed.
Theorem trim_substr : forall s, substring_ok s -> substring_ok (trim_start s) /\ substring_ok (trim_end s) /\ substring_ok (trim s).
Proof.
  intros s H. apply substr_spec in H. split; [|split]; apply substr_spec; eapply substr_slice; try exact H.
  - destruct (trim_start_slice s) as (a & E & _). exists a, []. now rewrite app_nil_r.
  - destruct (trim_end_slice s) as (b & E & _). exists [], b. exact E.
  - destruct (trim_slice s) as (a & b & E & _). exists a, b. exact E.
Qed.
(** trimming one end keeps the other end valid *)
Theorem trim_str : forall s, string_ok s ->
  (string_ok (trim_start s) <-> starts_ok (trim_start s)) /\ (string_ok (trim_end s) <-> ends_ok (trim_end s)) /\
  (string_ok (trim s) <-> starts_ok (trim s) /\ ends_ok (trim s)).
Proof.
  intros s (H & HS & HE). destruct (trim_substr s H) as (T1 & T2 & T3). unfold string_ok. split; [|split; [|tauto]].
  - split; [tauto|]. intro S. split; [exact T1|]. split; [exact S|]. intros t c E. destruct (trim_start_slice s) as (a & E2 & _). rewrite E, app_assoc in E2. exact (HE _ _ E2).
  - split; [tauto|]. intro S. split; [exact T2|]. split; [|exact S]. intros c t E. destruct (trim_end_slice s) as (b & E2 & _). rewrite E in E2. exact (HS _ _ E2).
Qed.
(** every white-space character that is allowed may start and end a string *)
Theorem trim_plain : forall s, string_ok s -> Forall (fun c => is_basic_text_start c = true /\ is_basic_text_end c = true) s ->
  string_ok (trim_start s) /\ string_ok (trim_end s) /\ string_ok (trim s).
Proof.
  intros s H F. assert (P : forall a b u, s = a ++ u ++ b -> starts_ok u /\ ends_ok u).
  { intros a b u ->. apply Forall_app in F. destruct F as [_ F]. apply Forall_app in F. destruct F as [F _]. split.
    - intros c t ->. now inversion F.
    - intros t c ->. apply Forall_app in F. destruct F as [_ F]. now inversion F. }
  destruct (trim_str s H) as (T1 & T2 & T3). split; [|split].
  - apply T1. destruct (trim_start_slice s) as (a & E & _). apply (P a []). now rewrite app_nil_r.
  - apply T2. destruct (trim_end_slice s) as (b & E & _). now apply (P [] b).
  - apply T3. destruct (trim_slice s) as (a & b & E & _). exact (P a b _ E).
Qed.

(** * Slicing *)
Lemma index_slice : forall s i j u, index s i j = Some u -> exists a b, s = a ++ u ++ b /\ str_len a = i /\ str_len (a ++ u) = j.
Proof.
  intros s i j u H. unfold index in H. destruct (char_boundary s i) eqn:EI; [|discriminate]. destruct (char_boundary s j) eqn:EJ; [|discriminate].
  cbn [andb] in H. destruct (Nat.leb_spec i j) as [L|L]; [|discriminate]. injection H as H.
  destruct (boundary_split _ _ EI) as (a & b & E1 & L1 & T1 & _). destruct (boundary_split _ _ EJ) as (c & d & E2 & L2 & T2 & _).
  destruct (boundary_prefix _ _ _ EI EJ L) as [m EM]. rewrite T1, T2 in EM. rewrite T2, EM, <- L1 in H.
  destruct (boundary_app a m) as (_ & _ & D). rewrite D in H. subst m. exists a, d. rewrite app_assoc, <- EM. auto.
Qed.
Lemma index_some : forall a u b, index (a ++ u ++ b) (str_len a) (str_len (a ++ u)) = Some u.
Proof.
  intros a u b. unfold index. destruct (boundary_app a (u ++ b)) as (-> & _ & _). rewrite app_assoc. destruct (boundary_app (a ++ u) b) as (-> & -> & _).
  assert (Nat.leb (str_len a) (str_len (a ++ u)) = true) as -> by (apply Nat.leb_le; rewrite str_len_app; lia). cbn [andb].
  destruct (boundary_app a u) as (_ & _ & ->). reflexivity.
Qed.
Theorem index_iff : forall s i j u, index s i j = Some u <-> exists a b, s = a ++ u ++ b /\ str_len a = i /\ str_len (a ++ u) = j.
Proof. intros s i j u. split; [apply index_slice|]. intros (a & b & -> & <- & <-). apply index_some. Qed.
Lemma index_to_iff : forall s j u, index_to s j = Some u <-> exists b, s = u ++ b /\ str_len u = j.
Proof.
  intros s j u. unfold index_to. split.
  - destruct (char_boundary s j) eqn:E; [|discriminate]. intro H. injection H as <-. destruct (boundary_split _ _ E) as (a & b & E1 & L & -> & _). eauto.
  - intros (b & -> & <-). now destruct (boundary_app u b) as (-> & -> & _).
Qed.
Lemma index_from_iff : forall s i u, index_from s i = Some u <-> exists a, s = a ++ u /\ str_len a = i.
Proof.
  intros s i u. unfold index_from. split.
  - destruct (char_boundary s i) eqn:E; [|discriminate]. intro H. injection H as <-. destruct (boundary_split _ _ E) as (a & b & E1 & L & _ & ->). eauto.
  - intros (a & -> & <-). now destruct (boundary_app a u) as (-> & _ & ->).
Qed.
Theorem index_valid : forall s u, substring_ok s -> (exists i j, index s i j = Some u) \/ (exists j, index_to s j = Some u) \/ (exists i, index_from s i = Some u) ->
  substring_ok u.
Proof.
  intros s u H HI. apply substr_spec. apply substr_spec in H. eapply substr_slice; [|exact H].
  destruct HI as [(i & j & HI)|[(j & HI)|(i & HI)]].
  - apply index_iff in HI. destruct HI as (a & b & -> & _). now exists a, b.
  - apply index_to_iff in HI. destruct HI as (b & -> & _). now exists [], b.
  - apply index_from_iff in HI. destruct HI as (a & -> & _). exists a, []. now rewrite app_nil_r.
Qed.

(** * Splitting *)
Lemma split_iff : forall check s mid u v, split_at check s mid = Some (u, v) <-> s = u ++ v /\ str_len u = mid /\ check u = true /\ check v = true.
Proof.
  intros check s mid u v. unfold split_at, str_from_text. split.
  - destruct (char_boundary s mid) eqn:E; [|discriminate]. destruct (boundary_split _ _ E) as (a & b & E1 & L & -> & ->).
    destruct (check a) eqn:EA; [|discriminate]. destruct (check b) eqn:EB; [|discriminate]. intro H. injection H as <- <-. auto.
  - intros (-> & <- & A & B). destruct (boundary_app u v) as (-> & -> & ->). now rewrite A, B.
Qed.
Theorem split_str : forall s mid u v, split_at is_basic_text s mid = Some (u, v) <-> s = u ++ v /\ str_len u = mid /\ string_ok u /\ string_ok v.
Proof. intros s mid u v. rewrite split_iff, !basic_text_spec. tauto. Qed.
(** for TextStr: exactly when the cut is not before a non-starter or after a
    non-ender *)
Theorem split_str_iff : forall u v, string_ok (u ++ v) -> split_at is_basic_text (u ++ v) (str_len u) = Some (u, v) <-> ends_ok u /\ starts_ok v.
Proof.
  intros u v (H & HS & HE). rewrite split_str. apply substr_spec, substr_app in H. rewrite !substr_spec in H. destruct H as [H1 H2]. unfold string_ok. split; [tauto|].
  intros [A B]. repeat (split; auto); try apply H1; try apply H2.
  - intros c t ->. exact (HS c (t ++ v) eq_refl).
  - intros t c ->. apply (HE (u ++ t) c). now rewrite app_assoc.
Qed.
Theorem split_substr_iff : forall u v, substring_ok (u ++ v) -> split_at is_basic_text_substr (u ++ v) (str_len u) = Some (u, v).
Proof. intros u v H. apply split_iff. apply substr_spec, substr_app in H. tauto. Qed.

(** * read_to_text_string *)
Theorem read_to_string_ok : forall buf text, string_ok buf -> string_ok text -> fst (read_to_text_string buf text) = true /\
  (string_ok (snd (read_to_text_string buf text)) <-> ~ joined buf text).
Proof.
  intros buf text HB HT. unfold read_to_text_string. cbn [fst snd]. split; [|now apply app_ok]. apply starts_ok_iff. apply HT.
Qed.
