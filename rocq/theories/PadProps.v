(** Formatted texts. *)
From Coq Require Import NArith Arith List Bool Lia ZifyBool ZifyNat ZifyN.
From Verif Require Import Base Ucd UcdTables Norm Chars TextTables TextUtils UcdFacts NormFacts CharFacts DocTable SpecText TextFacts DocFacts PipelineFacts ConcatFacts Utf8 Utf8Facts SpecString StringProps JoinProps AsciiProps SpecAscii
  DebugProps Output SpecConv SpecWrite SpecStream SpecMore Fuzz WriteFacts StdIo StdBuf SpecBuf StdFmt SpecFmt FmtProps StdPad SpecPad.
Import ListNotations.
Local Open Scope N_scope.
Arguments N.add : simpl never.
Arguments N.leb : simpl never.
Arguments N.ltb : simpl never.
Arguments N.eqb : simpl never.

Lemma concat_single : forall (c : N) n, concat (repeat [c] n) = repeat c n.
Proof. intros c n. induction n as [|n IH]; [reflexivity|]. cbn [repeat concat app]. now rewrite IH. Qed.
Lemma padding_sum : forall f n, (fst (padding f n) + snd (padding f n) = n)%nat.
Proof.
  intros f n. unfold padding. destruct (align f) as [[| |]|]; cbn [fst snd]; try lia.
  pose proof (Nat.div2_odd n) as E. pose proof (Nat.div2_odd (Datatypes.S n)) as E2. rewrite Nat.odd_succ, <- Nat.negb_odd in E2. destruct (Nat.odd n); cbn [Nat.b2n negb] in *; lia.
Qed.
Lemma padding_placed : forall f n, placed f (fst (padding f n)) (snd (padding f n)).
Proof.
  intros f n. unfold padding, placed. destruct (align f) as [[| |]|]; cbn [fst snd]; auto.
  pose proof (Nat.div2_odd n) as E. pose proof (Nat.div2_odd (Datatypes.S n)) as E2. rewrite Nat.odd_succ, <- Nat.negb_odd in E2. destruct (Nat.odd n); cbn [Nat.b2n negb] in *; lia.
Qed.
Lemma cut_kept : forall f s, kept f s (cut_text f s).
Proof.
  intros f s. unfold kept, cut_text. destruct (precision f) as [p|].
  - split; [exists (skipn p s); now rewrite firstn_skipn|apply firstn_length].
  - split; [exists []; now rewrite app_nil_r|reflexivity].
Qed.
(** The pieces in one form. *)
Lemma display_shape : forall f s, exists l r, display f s = repeat [fill f] l ++ cut_text f s :: repeat [fill f] r /\
  (l + r = match width f with Some w => w | None => 0 end - length (cut_text f s))%nat /\ placed f l r.
Proof.
  intros f s. unfold display. assert (P0 : placed f 0 0) by (unfold placed; destruct (align f) as [[| |]|]; auto).
  destruct (width f) as [w|]; [|exists 0%nat, 0%nat; auto]. destruct (Nat.leb_spec w (length (cut_text f s))) as [H|H].
  - exists 0%nat, 0%nat. split; [reflexivity|]. split; [lia|exact P0].
  - pose proof (padding_sum f (w - length (cut_text f s))) as A. pose proof (padding_placed f (w - length (cut_text f s))) as B. destruct (padding f _) as [l r]. exists l, r. auto.
Qed.
Lemma formatted_parts : forall f s, exists l r, formatted f s = repeat (fill f) l ++ cut_text f s ++ repeat (fill f) r /\
  (l + r = match width f with Some w => w | None => 0 end - length (cut_text f s))%nat /\ placed f l r.
Proof.
  intros f s. destruct (display_shape f s) as (l & r & E & H). exists l, r. split; [|exact H]. unfold formatted. rewrite E, concat_app, concat_single. cbn [concat]. now rewrite concat_single.
Qed.
Theorem formatted_shape : forall f s, exists l t r, formatted f s = repeat (fill f) l ++ t ++ repeat (fill f) r /\ kept f s t /\ placed f l r /\
  length (formatted f s) = Nat.max (match width f with Some w => w | None => 0 end) (length t).
Proof.
  intros f s. destruct (formatted_parts f s) as (l & r & E & H & P). exists l, (cut_text f s), r. split; [exact E|]. split; [apply cut_kept|]. split; [exact P|].
  rewrite E, !app_length, !repeat_length. lia.
Qed.
Theorem plain_formatted : forall s, formatted plain_format s = s.
Proof. intro s. unfold formatted, display, plain_format, cut_text. cbn. apply app_nil_r. Qed.

(** * Validity *)
Lemma chk_v : range_all is_basic_text_start 0x1161 0x1175 = true.
Proof. vm_compute. reflexivity. Qed.
Lemma chk_t : range_all is_basic_text_start 0x11A8 0x11C2 = true.
Proof. vm_compute. reflexivity. Qed.
Lemma hangul_starts : forall x y, hangul_join x y -> is_basic_text_start y = true.
Proof.
  intros x y H. unfold hangul_join in H. destruct H as [H|(_ & _ & H)].
  - apply (range_all_spec _ _ _ y chk_v). unfold in_range. lia.
  - apply (range_all_spec _ _ _ y chk_t). unfold in_range. lia.
Qed.
Lemma nfc_no_joins : forall s, nfc_ss s -> no_joins s.
Proof.
  intros s H a x y b -> J. apply nfc_ss_app in H. destruct H as [_ H]. change (x :: y :: b) with ([x] ++ y :: b) in H.
  assert (SO : starts_ok (y :: b)) by (intros c t E; injection E as <- _; exact (hangul_starts x y J)).
  pose proof (nfc_ss_seam_inv [x] (y :: b) SO H) as K. apply seam_joined in K; [|exact SO]. apply K. exists [], x, y, b. auto.
Qed.
Lemma repeat_starts : forall c n, is_basic_text_start c = true -> starts_ok (repeat c n).
Proof. intros c n H d t E. destruct n; [discriminate|]. injection E as <- _. exact H. Qed.
Lemma repeat_nfc : forall c n, is_basic_text_start c = true -> nfc_ss [c] -> nfc_ss (repeat c n).
Proof.
  intros c n H N. induction n as [|n IH]; [split; reflexivity|]. change (repeat c (Datatypes.S n)) with ([c] ++ repeat c n). pose proof (repeat_starts c n H) as SO.
  apply nfc_ss_seam; auto. apply seam_joined; [exact SO|]. intros (t & x & d & u & EA & EB & J). destruct n; [discriminate|]. injection EB as <- _.
  change [c] with ([] ++ [c]) in EA. apply app_inj_tail in EA. destruct EA as [_ <-]. unfold hangul_join in J. lia.
Qed.
Lemma starts_app : forall a b, starts_ok a -> starts_ok b -> starts_ok (a ++ b).
Proof. intros a b A B c t E. destruct a as [|d a]; [exact (B c t E)|]. injection E as -> _. exact (A c a eq_refl). Qed.
Lemma no_joins_app : forall a b, no_joins (a ++ b) -> no_joins a /\ no_joins b /\ ~ joined a b.
Proof.
  intros a b H. split; [|split].
  - intros u x y v -> . apply (H u x y (v ++ b)). now rewrite <- app_assoc.
  - intros u x y v -> . apply (H (a ++ u) x y v). now rewrite <- app_assoc.
  - intros (t & x & y & u & -> & -> & J). apply (H t x y u); [now rewrite <- app_assoc|exact J].
Qed.
Lemma nfc_glue : forall a b, starts_ok b -> nfc_ss a -> nfc_ss b -> no_joins (a ++ b) -> nfc_ss (a ++ b).
Proof. intros a b SO A B J. apply nfc_ss_seam; auto. apply seam_joined; [exact SO|]. apply (no_joins_app a b J). Qed.
Lemma prefix_starts : forall a b, starts_ok (a ++ b) -> starts_ok a.
Proof. intros a b H c t ->. exact (H c (t ++ b) eq_refl). Qed.
Theorem formatted_exact : forall f s, string_ok s -> string_ok [fill f] ->
  string_ok (formatted f s) <-> ends_ok (formatted f s) /\ no_joins (formatted f s).
Proof.
  intros f s (SB & SS & _) (FB & FS & _). destruct (cut_kept f s) as [[u EU] _]. apply sub_ok_iff in SB. destruct SB as [NS AS]. apply sub_ok_iff in FB. destruct FB as [NF AF].
  pose proof (FS _ [] eq_refl) as CF. apply Forall_inv in AF. destruct (formatted_parts f s) as (l & r & E & _). rewrite E. set (t := cut_text f s) in *. rewrite EU in NS, AS, SS.
  apply nfc_ss_app in NS. destruct NS as [NT _]. apply Forall_app in AS. destruct AS as [AT _]. apply prefix_starts in SS. split.
  - intros (K & _ & KE). split; [exact KE|]. apply sub_ok_iff in K. now apply nfc_no_joins.
  - intros [KE KJ]. pose proof (proj1 (proj2 (no_joins_app _ _ KJ))) as KT.
    assert (SR : starts_ok (t ++ repeat (fill f) r)) by (apply starts_app; [exact SS|now apply repeat_starts]).
    assert (AR : forall n, Forall allowed (repeat (fill f) n)) by (intro n; apply Forall_forall; intros x HX; apply repeat_spec in HX; now subst x).
    split; [|split].
    + apply sub_ok_iff. split; [|apply Forall_app; split; [apply AR|apply Forall_app; split; [exact AT|apply AR]]].
      apply nfc_glue; [exact SR|now apply repeat_nfc| |exact KJ]. apply nfc_glue; [now apply repeat_starts|exact NT|now apply repeat_nfc|exact KT].
    + apply starts_app; [now apply repeat_starts|exact SR].
    + exact KE.
Qed.

Lemma fill_ok : forall f, ascii_fill f -> string_ok [fill f].
Proof. intros f H. apply plain_ok. constructor; [right; right; exact H|constructor]. Qed.
Lemma no_joins_glue : forall a b, no_joins a -> no_joins b -> ~ joined a b -> no_joins (a ++ b).
Proof.
  intros a b A B J u x y v E. apply app_eq_app in E. destruct E as (l & [[E1 E2]|[E1 E2]]).
  - destruct l as [|p [|q l]]; cbn [app] in E2.
    + exact (B [] x y v (eq_sym E2)).
    + injection E2 as <- E2. intro K. apply J. exists u, x, y, v. auto.
    + injection E2 as <- <- _. exact (A u x y l E1).
  - exact (B l x y v E2).
Qed.
Lemma repeat_no_joins : forall c n, is_basic_text_start c = true -> nfc_ss [c] -> no_joins (repeat c n).
Proof. intros c n H N. apply nfc_no_joins. now apply repeat_nfc. Qed.
Lemma formatted_no_joins : forall f s, nfc_ss s -> ascii_fill f -> no_joins (formatted f s).
Proof.
  intros f s NS HF. destruct (cut_kept f s) as [[u EU] _]. destruct (formatted_parts f s) as (l & r & E & _). rewrite E. rewrite EU in NS. apply nfc_ss_app in NS. destruct NS as [NT _]. apply nfc_no_joins in NT.
  assert (SF : is_basic_text_start (fill f) = true) by now apply start_ascii. assert (NF : nfc_ss [fill f]) by (apply ascii_nfc_ss; constructor; [exact HF|constructor]).
  assert (K : forall a b, (exists n, a = repeat (fill f) n) \/ (exists n, b = repeat (fill f) n) -> ~ joined a b).
  { intros a b D (t & x & c & v & EA & EB & J). assert (KX : x <> fill f /\ c <> fill f) by (unfold hangul_join in J; unfold ascii_fill in HF; lia). destruct KX as [KX KC]. destruct D as [[n ->]|[n ->]].
    - apply KX. apply (repeat_spec n (fill f) x). rewrite EA. apply in_or_app. right. now left.
    - apply KC. apply (repeat_spec n (fill f) c). rewrite EB. now left. }
  apply no_joins_glue; [now apply repeat_no_joins| |apply K; left; now exists l]. apply no_joins_glue; [exact NT|now apply repeat_no_joins|apply K; right; now exists r].
Qed.
Theorem formatted_ascii : forall f s, string_ok s -> ascii_fill f -> string_ok (formatted f s) <-> ends_ok (formatted f s).
Proof.
  intros f s H HF. rewrite (formatted_exact f s H (fill_ok f HF)). split; [tauto|]. intro K. split; [exact K|]. apply formatted_no_joins; [|exact HF]. destruct H as (H & _). apply sub_ok_iff in H. tauto.
Qed.
Lemma ends_app : forall a b, ends_ok a -> ends_ok b -> ends_ok (a ++ b).
Proof.
  intros a b A B t c E. destruct b as [|d b _] using rev_ind; [rewrite app_nil_r in E; exact (A t c E)|]. rewrite app_assoc in E. apply app_inj_tail in E. destruct E as [_ <-]. exact (B b d eq_refl).
Qed.
Lemma repeat_ends : forall c n, is_basic_text_end c = true -> ends_ok (repeat c n).
Proof. intros c n H t d E. assert (In d (repeat c n)) by (rewrite E; apply in_or_app; right; now left). apply repeat_spec in H0. now subst d. Qed.
(** Nothing cut off: always valid. *)
Theorem formatted_whole : forall f s, string_ok s -> ascii_fill f -> kept f s s -> string_ok (formatted f s).
Proof.
  intros f s H HF [_ HL]. apply formatted_ascii; auto. destruct (formatted_parts f s) as (l & r & E & _). rewrite E.
  assert (EC : cut_text f s = s). { unfold cut_text. destruct (precision f) as [p|]; [|reflexivity]. apply firstn_all2. lia. }
  rewrite EC. apply ends_app; [apply repeat_ends; now apply end_ascii|]. apply ends_app; [apply H|apply repeat_ends; now apply end_ascii].
Qed.

(** * Substrings *)
Lemma boring_space : boring 0x20.
Proof. apply boring_b_spec. vm_compute. reflexivity. Qed.
Lemma spaces_before : forall n s, nfc_ss s -> nfc_ss (repeat 0x20 n ++ s).
Proof. intros n s H. induction n as [|n IH]; [exact H|]. apply (nfc_ss_split [] 0x20 _ boring_space); [split; reflexivity|exact IH]. Qed.
Lemma spaces_after : forall n s, nfc_ss s -> nfc_ss (s ++ repeat 0x20 n).
Proof.
  intros [|n] s H; [now rewrite app_nil_r|]. cbn [repeat]. apply nfc_ss_split; [exact boring_space|exact H|]. rewrite <- app_nil_r. apply spaces_before. split; reflexivity.
Qed.
Theorem formatted_substr : forall f s, substring_ok s -> fill f = 0x20 -> substring_ok (formatted f s).
Proof.
  intros f s H HF. apply sub_ok_iff in H. destruct H as [NS AS]. destruct (cut_kept f s) as [[u EU] _]. destruct (formatted_parts f s) as (l & r & E & _). rewrite E, HF. rewrite EU in NS, AS.
  apply nfc_ss_app in NS. apply Forall_app in AS. apply sub_ok_iff. split; [apply spaces_before, spaces_after, NS|].
  assert (A : forall n, Forall allowed (repeat 0x20 n)). { intro n. apply Forall_forall. intros x HX. apply repeat_spec in HX. subst x. apply ascii_allowed; [unfold ascii; lia|]. right. right. lia. }
  apply Forall_app. split; [apply A|]. apply Forall_app. split; [apply AS|apply A].
Qed.

(** * Written to a TextWriter *)
Lemma single_pipeline : forall f, ascii_fill f -> pipeline [fill f] = [fill f].
Proof.
  intros f H. pose proof (fill_ok f H) as OK. apply ok_pipeline; [exact OK|]. intros a c b E U. exfalso. destruct a as [|a0 a]; [|destruct a; discriminate]. injection E as <- _.
  assert (A : ascii (fill f)) by (unfold ascii; unfold ascii_fill in H; lia). apply ascii_facts in A. unfold ascii_check in A. apply andb_true_iff in A. destruct A as [_ A].
  replace (plainb (fill f)) with true in A by (symmetry; apply plainb_spec; right; right; exact H). cbn [negb orb] in A. rewrite !andb_true_iff in A. destruct A as [[_ A] _]. congruence.
Qed.
Lemma cut_pipeline : forall f s, string_ok s -> preceded s -> pipeline (cut_text f s) = cut_text f s.
Proof.
  intros f s (H & _) P. destruct (cut_kept f s) as [[u EU] _]. set (t := cut_text f s) in *. clearbody t. subst s. apply substr_spec, substr_ok_iff in H. destruct H as [C N]. apply pipeline_fix.
  - now apply Forall_app in C.
  - now apply nfc_ss_app in N.
  - apply prec_ok_spec. intros a c b -> U. apply (P a c (b ++ u)); [now rewrite <- app_assoc|exact U].
Qed.
Lemma repeat_pipeline : forall f n, ascii_fill f -> map pipeline (repeat [fill f] n) = repeat [fill f] n.
Proof. intros f n H. induction n as [|n IH]; [reflexivity|]. cbn [repeat map]. now rewrite IH, single_pipeline. Qed.
Theorem formatted_written : forall f s bom cr r w, string_ok s -> scalars s -> preceded s -> ascii_fill f ->
  write_fmt (new_writer cr false (below bom)) (display f s) = Some (r, w) ->
  r = None /\ emitted (inner w) = (if bom then [0xFEFF] else []) ++ as_sent cr (formatted f s).
Proof.
  intros f s bom cr r w H SC P HF E. destruct (close w) as [r' w'] eqn:CL. destruct (display_shape f s) as (l & rr & ED & _).
  assert (SCF : is_scalar (fill f) = true) by (unfold ascii_fill in HF; unfold is_scalar, in_range; lia).
  assert (SP : Forall scalars (display f s)).
  { rewrite ED. assert (R : forall n, Forall scalars (repeat [fill f] n)) by (intro n; apply Forall_forall; intros x HX; apply repeat_spec in HX; subst x; constructor; [exact SCF|constructor]).
    apply Forall_app. split; [apply R|]. constructor; [|apply R]. destruct (cut_kept f s) as [[u EU] _]. unfold scalars in SC |- *. rewrite EU in SC. now apply Forall_app in SC. }
  destruct (fmt_written bom cr (display f s) r w r' w' SP E CL) as (A & _ & B). fold (formatted f s) in A.
  assert (RN : r = None).
  { apply A. destruct (formatted_parts f s) as (l1 & r1 & E1 & _). destruct (cut_kept f s) as [[u EU] _]. destruct H as (H & HS & _). apply sub_ok_iff in H. destruct H as [_ AS]. rewrite EU in AS, HS. apply Forall_app in AS. apply prefix_starts in HS.
    assert (SF : is_basic_text_start (fill f) = true) by now apply start_ascii.
    assert (AR : forall n, Forall allowed (repeat (fill f) n)). { intro n. apply Forall_forall. intros x HX. apply repeat_spec in HX. subst x. apply ascii_allowed; [unfold ascii; unfold ascii_fill in HF; lia|]. right. right. exact HF. }
    rewrite E1. split; [apply Forall_app; split; [apply AR|apply Forall_app; split; [apply AS|apply AR]]|]. apply starts_app; [now apply repeat_starts|]. apply starts_app; [exact HS|now apply repeat_starts]. }
  split; [exact RN|]. destruct (B RN) as [B1 _]. rewrite B1. f_equal. f_equal. unfold formatted. f_equal. rewrite ED, map_app, repeat_pipeline by exact HF. cbn [map]. now rewrite repeat_pipeline, cut_pipeline.
Qed.
