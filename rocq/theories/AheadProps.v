(** What the iterators deliver in all, and which error a write reports. *)
From Coq Require Import NArith Arith List Bool Lia ZifyBool ZifyNat ZifyN.
From Verif Require Import Base Ucd UcdTables Norm Chars TextTables TextUtils UcdFacts NormFacts CharFacts PipelineFacts KeepFacts Output Errors ErrorProps WriteFacts NormIter NormIterProps SpecAhead NormAhead.
Import ListNotations.
Local Open Scope N_scope.
Arguments N.add : simpl never.
Arguments N.leb : simpl never.
Arguments N.ltb : simpl never.
Arguments N.eqb : simpl never.
Arguments cjk1 : simpl never.
Arguments cd : simpl never.
Arguments SUB : simpl never.

(** * Enough rounds *)
Transparent ccc cd kd compose qc_nfc is_public_assigned cjk_variant.
Lemma chk_cd_len : tall (fun _ d => Nat.leb (length d) 4) trie_canon = true. Proof. vm_compute. reflexivity. Qed.
Lemma cd_len4 : forall c, (length (cd c) <= 4)%nat.
Proof.
  intro c. destruct (cd_cases c) as [->|[[H ->]|H]]; [cbn; lia| |].
  - unfold decompose_hangul. cbn zeta. destruct (_ =? 0); cbn; lia.
  - apply (tall_spec _ _ _ _ _ chk_cd_len) in H. now apply Nat.leb_le in H.
Qed.
Global Opaque ccc cd kd compose qc_nfc is_public_assigned cjk_variant.
Lemma flat_len : forall (f : N -> list N) m l, (forall c, (length (f c) <= m)%nat) -> (length (flat_map f l) <= m * length l)%nat.
Proof. intros f m l H. induction l as [|c l IH]; cbn [flat_map length]; [lia|]. rewrite app_length. specialize (H c). lia. Qed.
Lemma iso_len : forall l n h, (length (isolate_go n h l) <= 2 * length l + 1)%nat.
Proof. induction l as [|c l IH]; intros n h; cbn [isolate_go length]; [destruct n; cbn; lia|]. destruct (_ || _); cbn [length]; [specialize (IH (negb (is_assigned c)) false)|specialize (IH false (c =? CGJ))]; lia. Qed.
Lemma ss_len2 : forall l n, (length (stream_safe_go n l) <= 2 * length l)%nat.
Proof. induction l as [|c l IH]; intro n; cbn [stream_safe_go length]; [lia|]. destruct (Nat.ltb _ _); cbn [length]; [specialize (IH (count_next 0 c))|specialize (IH (count_next n c))]; lia. Qed.
Lemma cjk_len2 : forall c, (length (cjk1 c) <= 2)%nat.
Proof. intro c. unfold cjk1. destruct (c <=? 0x7F); [cbn; lia|]. destruct (cjk_variant c) as [[a b]|]; cbn; lia. Qed.
Lemma order_go_len : forall l p, length (order_go p l) = (length p + length l)%nat.
Proof.
  induction l as [|c l IH]; intro p; cbn [order_go length]; [rewrite sort_length; lia|]. destruct (ccc c =? 0); [rewrite app_length, sort_length; cbn [length]; rewrite IH; cbn; lia|]. rewrite IH, app_length. cbn. lia.
Qed.
Lemma rc_len : forall l k b o, (length (rc k b o l) <= 1 + length b + length l)%nat.
Proof.
  induction l as [|c l IH]; intros k b o; cbn [rc length]; [lia|].
  assert (A : forall k' o', (length (rc k' (b ++ [c]) o' l) <= 1 + length b + S (length l))%nat) by (intros; etransitivity; [apply IH|rewrite app_length; cbn; lia]).
  assert (B : forall k' o', (length (rc k' b o' l) <= 1 + length b + S (length l))%nat) by (intros; etransitivity; [apply IH|lia]).
  assert (C : forall k' b' o', (length (rc k' b' o' l) <= 1 + length b' + length l)%nat) by (intros; apply IH).
  destruct o as [o|].
  - destruct (ccc c <=? o); [destruct (ccc c =? 0); [|apply A]|destruct (compose k c); [apply B|apply A]]. cbn [length]. rewrite app_length. specialize (C c [] None). cbn in C. lia.
  - destruct (compose k c); [apply B|]. destruct (ccc c =? 0); [|apply A]. cbn [length]. specialize (C c b None). lia.
Qed.
Lemma recomp_len : forall l, (length (recomp l) <= length l)%nat.
Proof. induction l as [|c l IH]; cbn [recomp length]; [lia|]. destruct (ccc c =? 0); [etransitivity; [apply rc_len|cbn; lia]|cbn; lia]. Qed.
Lemma convert_enough : forall b s, rec_inv (convert_iter b s) /\ (todo (convert_iter b s) + 3 <= rounds s)%nat /\ rest_rec (convert_iter b s) = pipeline (seen b s) /\ (length (rest_rec (convert_iter b s)) <= rounds s)%nat.
Proof.
  intros b s. assert (I : rec_inv (convert_iter b s)) by (split; [split; [now left|split; [cbn; lia|left; auto]]|cbn; auto]). split; [exact I|].
  assert (Y : (length (stream_safe (cjk_compat_variants (isolate_unassigned (seen b s)))) <= 8 * length s + 4)%nat).
  { unfold stream_safe. etransitivity; [apply ss_len2|]. pose proof (flat_len cjk1 2 (isolate_unassigned (seen b s)) cjk_len2) as A. unfold cjk_compat_variants. pose proof (iso_len (seen b s) false false) as B. fold (isolate_unassigned (seen b s)) in B.
    assert (length (seen b s) = length s) by (destruct b; [apply map_length|reflexivity]). lia. }
  assert (D : (length (rest_dec (rec_src (convert_iter b s))) <= 32 * length s + 16)%nat).
  { change (rest_dec (rec_src (convert_iter b s))) with (order_go [] (flat_map cd (stream_safe (cjk_compat_variants (isolate_unassigned (seen b s)))))). rewrite order_go_len. cbn [length].
    pose proof (flat_len cd 4 (stream_safe (cjk_compat_variants (isolate_unassigned (seen b s)))) cd_len4). lia. }
  split; [|split].
  - unfold todo, rounds. change (rest_safe (dec_src (rec_src (convert_iter b s)))) with (stream_safe (cjk_compat_variants (isolate_unassigned (seen b s)))). lia.
  - reflexivity.
  - change (rest_rec (convert_iter b s)) with (recomp (rest_dec (rec_src (convert_iter b s)))). pose proof (recomp_len (rest_dec (rec_src (convert_iter b s)))). unfold rounds. lia.
Qed.
Lemma fuel_todo : forall r, (need_fuel r <= todo r + 3)%nat.
Proof. intro r. unfold need_fuel, todo. destruct (rec_state r); lia. Qed.
Lemma collect_rest : forall n fuel r, rec_inv r -> (todo r + 3 <= fuel)%nat -> (length (rest_rec r) <= n)%nat -> collect n fuel r = rest_rec r.
Proof.
  induction n as [|n IH]; intros fuel r I L N; [destruct (rest_rec r); [reflexivity|cbn in N; lia]|]. cbn [collect]. destruct (rec_next fuel r) as [o r'] eqn:E.
  pose proof (fuel_todo r). destruct (rec_next_spec _ _ _ _ E I ltac:(lia)) as (I' & T & R). destruct o as [c|]; [|destruct R as [-> _]; reflexivity].
  rewrite R in *. cbn in N. rewrite IH; [reflexivity|exact I'|lia|lia].
Qed.
Theorem collected : forall b s n fuel, (rounds s <= n)%nat -> (rounds s <= fuel)%nat -> collect n fuel (convert_iter b s) = pipeline (seen b s).
Proof. intros b s n fuel N F. destruct (convert_enough b s) as (I & T & R & L). rewrite <- R. apply collect_rest; [exact I|lia|lia]. Qed.

(** * Writing *)
Lemma sm_sub : forall w c w', sm_char w c = (Some EWCheck, w') -> c = SUB.
Proof.
  intros w c w' H. unfold sm_char in H. destruct (wst w).
  - destruct ((c =? ESC) && ansi w); [discriminate|]. destruct (c =? LF); [discriminate|]. destruct (N.eqb_spec c SUB); [assumption|]. destruct (c =? ESC); discriminate.
  - destruct (_ =? _); discriminate.
  - destruct (in_range _ _ _); [discriminate|]. destruct (_ =? _); discriminate.
Qed.
Lemma sm_not_sub : forall w w', sm_char w SUB <> (None, w').
Proof. intros w w' H. unfold sm_char in H. destruct (wst w); cbn in H; discriminate. Qed.
Lemma slow_spec : forall x n fuel w r T E, rec_inv r -> (todo r + 3 <= fuel)%nat -> (length (rest_rec r) <= n)%nat -> rg x r T E ->
  exists T', slow_path n fuel w r = outcome_of (sm_chars w (rest_rec r)) (recorded T') /\
  (forall w', sm_chars w (rest_rec r) = (Some EWCheck, w') -> exists rest, x = T' ++ rest /\ low T' /\ (rest = [] \/ many (Fs (flat_map cd (G0 (categorize T')))))).
Proof.
  intros x. induction n as [|n IH]; intros fuel w r T E I L N G; [exists T; destruct (rest_rec r); [split; [reflexivity|discriminate]|cbn in N; lia]|]. cbn [slow_path]. destruct (rec_next fuel r) as [o r'] eqn:EN.
  pose proof (fuel_todo r). destruct (rec_next_spec _ _ _ _ EN I ltac:(lia)) as (I' & TD & R). pose proof (rec_ahead x _ _ _ _ _ _ EN I ltac:(lia) G) as A.
  destruct o as [c|]; [|exists T; destruct R as [-> _]; split; [reflexivity|discriminate]]. rewrite R in *. cbn [length sm_chars] in *. destruct (sm_char w c) as [[e|] w'] eqn:ES.
  - assert (D : e = EWCheck \/ e <> EWCheck) by (destruct e; (now left) || (right; discriminate)). destruct D as [-> |D].
    + apply sm_sub in ES as X. subst c. rewrite N.eqb_refl in A. destruct A as (T' & (C1 & C2 & C3 & C4) & K). exists T'. unfold iter_cell. fold (bottom (dec_src (rec_src r'))). rewrite C3. split; [reflexivity|].
      intros w'' _. exists (chars (bottom (dec_src (rec_src r')))). auto.
    + exists T. split; [destruct e; try reflexivity; now destruct D|]. intros w'' X. injection X as -> _. now destruct D.
  - destruct (N.eqb_spec c SUB) as [-> |NS]; [now apply sm_not_sub in ES|]. destruct A as (T' & E' & A). destruct (IH fuel w' r' T' E' I' ltac:(lia) ltac:(lia) A) as (T2 & P). exists T2. exact P.
Qed.
Lemma rg_init : forall s, rg s (convert_iter true s) [] [].
Proof.
  intro s. split; [constructor|]. cbn [rec_state convert_iter rec_src composee]. split; [|reflexivity]. split; [|split; [|split; [cbn; lia|now left]]].
  - split; [reflexivity|]. split; [intros [|] ? ? K; discriminate K|]. split; reflexivity.
  - right. exists []. split; [intro l; reflexivity|reflexivity].
Qed.

(** * In terms of the text *)
Fixpoint iso_state (n h : bool) (s : list N) : bool * bool :=
  match s with
  | [] => (n, h)
  | c :: t => if (n && negb (c =? CGJ)) || (negb (is_assigned c) && negb h) then iso_state (negb (is_assigned c)) false t else iso_state false (c =? CGJ) t
  end.
Lemma iso_open_app : forall a n h b, iso_open n h (a ++ b) = iso_open n h a ++ iso_open (fst (iso_state n h a)) (snd (iso_state n h a)) b.
Proof. induction a as [|c a IH]; intros n h b; [reflexivity|]. cbn [app iso_open iso_state]. destruct (_ || _); rewrite IH; reflexivity. Qed.
Lemma iso_closed : forall a n h, isolate_go n h a = iso_open n h a ++ if fst (iso_state n h a) then [CGJ] else [].
Proof. induction a as [|c a IH]; intros n h; [now destruct n|]. cbn [isolate_go iso_open iso_state]. cbn zeta. destruct (_ || _); rewrite IH; reflexivity. Qed.
Lemma iso_need : forall a n h, fst (iso_state n h a) = true -> a = [] \/ exists q c, iso_open n h a = q ++ [CGJ; c] /\ is_assigned c = false.
Proof.
  induction a as [|c a IH] using rev_ind; intros n h H; [now left|]. right. rewrite iso_open_app. assert (S : iso_state n h (a ++ [c]) = iso_state (fst (iso_state n h a)) (snd (iso_state n h a)) [c]).
  { clear. revert n h. induction a as [|x a IH]; intros n h; [reflexivity|]. cbn [app iso_state]. destruct (_ || _); apply IH. }
  rewrite S in H. set (n1 := fst (iso_state n h a)) in *. set (h1 := snd (iso_state n h a)) in *. cbn [iso_state] in H. cbn [iso_open]. destruct ((n1 && negb (c =? CGJ)) || (negb (is_assigned c) && negb h1)); [|discriminate].
  cbn [fst] in H. exists (iso_open n h a), c. split; [reflexivity|]. now destruct (is_assigned c).
Qed.
Lemma iso_open_sub : forall a b, iso_open false false (a ++ SUB :: b) = isolate_unassigned a ++ SUB :: iso_open false false b.
Proof.
  intros a b. rewrite iso_open_app. unfold isolate_unassigned. rewrite iso_closed, <- app_assoc. f_equal. destruct (iso_state false false a) as [n h]. cbn [fst snd iso_open].
  rewrite assigned_SUB. change (SUB =? CGJ) with false. cbn [negb andb orb]. rewrite andb_true_r, orb_false_r. destruct n; reflexivity.
Qed.
Definition prepared (a : list N) : list N := stream_safe (cjk_compat_variants (isolate_unassigned a)).
Lemma G0_sub : forall a b, G0 (a ++ SUB :: b) = prepared a ++ SUB :: G0 b.
Proof.
  intros a b. unfold G0, prepared, cjk_compat_variants. rewrite iso_open_sub, flat_map_app. cbn [flat_map]. rewrite (b_cjk _ boring_SUB). cbn [app]. apply stream_safe_split, boring_SUB.
Qed.
Lemma prepared_sub : forall a, In SUB (flat_map cd (prepared a)) -> In SUB a.
Proof.
  intros a H. apply in_flat_map in H. destruct H as (y & HY & H). apply cd_kept in H; [|exact kept_SUB]. subst y. unfold prepared, stream_safe in HY. apply ss_in in HY. destruct HY as [HY|HY]; [|discriminate HY].
  unfold cjk_compat_variants in HY. apply in_flat_map in HY. destruct HY as (z & HZ & HY).
  apply (fun h => cjk_kept _ _ h kept_SUB) in HY.
  subst z. unfold isolate_unassigned in HZ. apply iso_in in HZ. destruct HZ as [HZ|HZ]; [exact HZ|discriminate HZ].
Qed.
Lemma past_prepared : forall a b, ~ In SUB a -> past (Fs (flat_map cd (G0 (a ++ SUB :: b)))) = Some (Fs (flat_map cd (G0 b))).
Proof.
  intros a b H. rewrite G0_sub, flat_map_app, Fs_app, past_app. replace (past (Fs (flat_map cd (prepared a)))) with (@None (list N)).
  - cbn [flat_map]. destruct (b_inert _ boring_SUB) as (C & F & _). rewrite F. cbn [app Fs filter]. rewrite C. reflexivity.
  - symmetry. apply past_none. intro K. apply H. apply prepared_sub. unfold Fs in K. apply filter_In in K. tauto.
Qed.
Lemma bases_open : forall u, ((bases u < 2)%nat <-> (length (Fs (flat_map cd (G0 (categorize u)))) < 2)%nat).
Proof.
  intro u. set (v := categorize u). unfold bases. fold v. fold (prepared v). fold (Fs (flat_map cd (prepared v))). unfold prepared, isolate_unassigned, G0. rewrite iso_closed. unfold cjk_compat_variants.
  destruct (fst (iso_state false false v)) eqn:S; [|rewrite app_nil_r; tauto].
  destruct (iso_need _ _ _ S) as [-> |(q & c & Q & A)]; [discriminate S|]. rewrite Q. pose proof (unassigned_boring c A) as BC.
  rewrite !flat_map_app. cbn [flat_map]. rewrite (b_cjk _ BC), (b_cjk _ boring_CGJ). cbn [app].
  change (flat_map cjk1 q ++ [CGJ; c]) with (flat_map cjk1 q ++ CGJ :: [c]). rewrite <- app_assoc. cbn [app]. rewrite !stream_safe_split by exact boring_CGJ.
  assert (E1 : stream_safe [c] = [c]) by (change [c] with ([] ++ c :: []); rewrite stream_safe_split by exact BC; reflexivity).
  assert (E2 : stream_safe [c; CGJ] = [c; CGJ]) by (change [c; CGJ] with ([] ++ c :: [CGJ]); rewrite stream_safe_split by exact BC; change [CGJ] with ([] ++ CGJ :: []); rewrite stream_safe_split by exact boring_CGJ; reflexivity).
  rewrite E1, E2, !flat_map_app, !Fs_app, !app_length. cbn [flat_map].
  destruct (b_inert _ BC) as (C1 & F1 & _). destruct (b_inert _ boring_CGJ) as (C2 & F2 & _). rewrite F1, F2. cbn [app Fs filter]. rewrite C1, C2. cbn [length]. change (0 =? 0) with true. cbn [length]. lia.
Qed.
Lemma recorded_fine : forall a b, Forall (fun y => check_basic_text_char y = None) a -> recorded (a ++ b) = recorded b.
Proof. intros a b H. rewrite recorded_app. destruct (recorded b); [reflexivity|]. now apply recorded_none. Qed.
Lemma fine_sub : forall a, Forall (fun y => check_basic_text_char y = None) a -> ~ In SUB (categorize a).
Proof.
  intros a H K. apply first_refused in K. destruct K as (a1 & c & b1 & e & -> & _ & E). apply Forall_app in H. destruct H as [_ H]. inversion H; subst. congruence.
Qed.
Lemma fast_spec : forall s w e0, exists e1, fast_path w (mksource s true e0) s = outcome_of (sm_chars w (categorize s)) e1 /\
  forall w', sm_chars w (categorize s) = (Some EWCheck, w') -> exists a c b e, s = a ++ c :: b /\ Forall (fun y => check_basic_text_char y = None) a /\ check_basic_text_char c = Some e /\ e1 = Some e.
Proof.
  induction s as [|t s IH]; intros w e0; [exists None; split; [reflexivity|discriminate]|]. cbn [fast_path]. unfold source_next. cbn [chars checking cell categorize map sm_chars]. fold (categorize s). unfold categorize1 at 1 2.
  destruct (check_basic_text_char t) as [e|] eqn:C.
  - exists (Some e). destruct (sm_char w SUB) as [[x|] w1] eqn:E; [|now apply sm_not_sub in E]. split; [destruct x; reflexivity|]. intros w' H. exists [], t, s, e. auto.
  - destruct (sm_char w t) as [[x|] w1] eqn:E.
    + exists None. split; [destruct x; try reflexivity; apply sm_sub in E; subst t; destruct check_SUB as [? ?]; congruence|]. intros w' H. injection H as -> _. apply sm_sub in E. subst t. destruct check_SUB as [? ?]. congruence.
    + destruct (IH w1 e0) as (e1 & H1 & H2). exists e1. split; [exact H1|]. intros w' H. destruct (H2 _ H) as (a & c & b & e & -> & A1 & A2 & A3). exists (t :: a), c, b, e. auto.
Qed.

Theorem write_exact : forall w x, exists e, write_chars w x = outcome_of (state_machine w x) e /\
  forall w', state_machine w x = (Some EWCheck, w') -> exists a c b k, x = a ++ c :: b /\ Forall (fun y => check_basic_text_char y = None) a /\ check_basic_text_char c <> None /\
    e = recorded (c :: firstn k b) /\ (quick_text x -> k = 0%nat) /\ (~ quick_text x -> looked_at b k).
Proof.
  intros w x. unfold write_chars, state_machine, converted. set (qk := (match is_nfc_stream_safe_quick x with Yes => true | _ => false end) && forallb is_public_assigned x).
  assert (QK : qk = true <-> quick_text x).
  { unfold qk, quick_text. rewrite andb_true_iff. destruct (is_nfc_stream_safe_quick x); intuition discriminate. }
  clearbody qk. destruct qk.
  - destruct (fast_spec x w None) as (e1 & H1 & H2). exists e1. split; [exact H1|]. intros w' H. destruct (H2 _ H) as (a & c & b & e & -> & A1 & A2 & ->). exists a, c, b, 0%nat.
    split; [reflexivity|]. split; [exact A1|]. split; [congruence|]. split; [unfold recorded; cbn [firstn fold_left]; now rewrite A2|]. split; [reflexivity|]. intro K. exfalso. apply K. now apply QK.
  - destruct (convert_enough true x) as (I & T & R & L). destruct (slow_spec x (rounds x) (rounds x) w _ [] [] I ltac:(lia) L (rg_init x)) as (T' & H1 & H2). rewrite R in H1, H2. cbn [seen] in H1, H2.
    exists (recorded T'). split; [exact H1|]. intros w' H. destruct (H2 _ H) as (rest & EX & LO & ST). apply sm_check in H. apply (pipeline_in SUB (categorize x) kept_SUB) in H. destruct (first_refused _ H) as (a & c & b & e & E & HA & HC).
    assert (P : exists b1, T' = a ++ c :: b1 /\ b = b1 ++ rest).
    { assert (D : (length T' <= length a)%nat \/ (length a < length T')%nat) by lia. destruct D as [D|D].
      - exfalso. destruct ST as [-> |ST]; [rewrite app_nil_r in EX; subst x; rewrite E, app_length in D; cbn in D; lia|].
        assert (PT : exists a2, a = T' ++ a2). { exists (skipn (length T') a). rewrite <- (firstn_skipn (length T') a) at 1. f_equal. rewrite EX in E. apply (f_equal (firstn (length T'))) in E. rewrite !firstn_app, Nat.sub_diag, firstn_all, firstn_O, app_nil_r in E. replace (length T' - length a)%nat with 0%nat in E by lia. rewrite firstn_O, app_nil_r in E. now symmetry. }
        destruct PT as (a2 & ->). apply Forall_app in HA. destruct HA as [HA _]. unfold many in ST. replace (past (Fs (flat_map cd (G0 (categorize T'))))) with (@None (list N)) in ST; [exact ST|]. symmetry. apply past_none. intro K.
        apply (fine_sub T' HA). apply prepared_sub. unfold prepared, isolate_unassigned. rewrite iso_closed. unfold Fs in K. apply filter_In in K. destruct K as [K _]. unfold G0 in K.
        destruct (fst (iso_state false false (categorize T'))); [|rewrite app_nil_r; exact K]. unfold cjk_compat_variants. rewrite flat_map_app. cbn [flat_map]. rewrite (b_cjk _ boring_CGJ). cbn [app].
        rewrite stream_safe_split by exact boring_CGJ. rewrite flat_map_app. apply in_or_app. left. exact K.
      - rewrite E in EX. exists (skipn (S (length a)) T'). assert (F : firstn (S (length a)) T' = a ++ [c]).
        { apply (f_equal (firstn (S (length a)))) in EX. rewrite !firstn_app in EX. rewrite (firstn_all2 a) in EX by lia. replace (S (length a) - length a)%nat with 1%nat in EX by lia. replace (S (length a) - length T')%nat with 0%nat in EX by lia. cbn [firstn] in EX. rewrite app_nil_r in EX. now symmetry. }
        assert (ET : T' = a ++ c :: skipn (S (length a)) T') by (rewrite <- (firstn_skipn (S (length a)) T') at 1; rewrite F, <- app_assoc; reflexivity).
        split; [exact ET|]. rewrite ET in EX. rewrite <- app_assoc in EX. apply app_inv_head in EX. cbn [app] in EX. now injection EX. }
    destruct P as (b1 & -> & ->). exists a, c, (b1 ++ rest), (length b1). split; [exact E|]. split; [exact HA|]. split; [congruence|].
    assert (FB : firstn (length b1) (b1 ++ rest) = b1) by (rewrite firstn_app, Nat.sub_diag, firstn_all, firstn_O, app_nil_r; reflexivity). rewrite FB. split; [now apply recorded_fine|].
    split; [intro K; apply QK in K; discriminate|]. intros _. unfold looked_at.
    assert (GC : forall u, past (Fs (flat_map cd (G0 (categorize (a ++ c :: u))))) = Some (Fs (flat_map cd (G0 (categorize u))))).
    { intro u. unfold categorize at 1. rewrite map_app. cbn [map]. unfold categorize1 at 2. rewrite HC. apply past_prepared. now apply fine_sub. }
    split; [rewrite app_length; lia|]. split.
    + intros j J. apply bases_open. assert (FJ : firstn j (b1 ++ rest) = firstn j b1) by (rewrite firstn_app; replace (j - length b1)%nat with 0%nat by lia; rewrite firstn_O, app_nil_r; reflexivity). rewrite FJ.
      assert (SJ : exists t u, b1 = firstn j b1 ++ t :: u). { pose proof (firstn_skipn j b1) as K. destruct (skipn j b1) as [|t u] eqn:EK; [apply (f_equal (@length N)) in K; rewrite app_length, firstn_length in K; cbn in K; lia|]. exists t, u. now symmetry. }
      destruct SJ as (t & u & SJ). specialize (LO (a ++ c :: firstn j b1) t u). unfold few in LO. rewrite GC in LO. apply LO. rewrite <- app_assoc. cbn [app]. now rewrite <- SJ.
    + rewrite FB. destruct ST as [-> |ST]; [left; now rewrite app_nil_r|right]. unfold many in ST. rewrite GC in ST. pose proof (proj1 (bases_open b1)) as K. destruct (Nat.lt_ge_cases (bases b1) 2) as [Q|Q]; [|exact Q]. specialize (K Q). lia.
Qed.

Lemma recorded_cons_some : forall c b, check_basic_text_char c <> None -> recorded (c :: b) <> None.
Proof.
  intros c b H. change (c :: b) with ([c] ++ b). rewrite recorded_app. destruct (recorded b); [discriminate|]. unfold recorded. cbn [fold_left]. destruct (check_basic_text_char c); congruence.
Qed.
Theorem write_some : forall w x w', write_chars w x <> (WRefused None, w').
Proof.
  intros w x w' H. destruct (write_exact w x) as (e & E & K). rewrite E in H. unfold outcome_of in H. destruct (state_machine w x) as [[[]|] w1]; try discriminate.
  destruct (K _ eq_refl) as (a & c & b & k & _ & _ & C & R & _). injection H as -> _. symmetry in R. revert R. now apply recorded_cons_some.
Qed.
Theorem write_first : forall w x e w', quick_text x -> write_chars w x = (WRefused e, w') ->
  exists a c b, x = a ++ c :: b /\ Forall (fun y => check_basic_text_char y = None) a /\ e = check_basic_text_char c /\ e <> None.
Proof.
  intros w x e w' Q H. destruct (write_exact w x) as (e1 & E & K). rewrite E in H. unfold outcome_of in H. destruct (state_machine w x) as [[[]|] w1]; try discriminate.
  injection H as -> _. destruct (K _ eq_refl) as (a & c & b & k & -> & A & C & R & K0 & _). rewrite (K0 Q) in R. unfold recorded in R. cbn [firstn fold_left] in R. exists a, c, b. split; [reflexivity|]. split; [exact A|]. destruct (check_basic_text_char c); [|congruence]. split; congruence.
Qed.
