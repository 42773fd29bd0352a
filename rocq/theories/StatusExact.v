(** Exactly when copy_text_using_status copies everything (C36). *)
From Coq Require Import NArith Arith List Bool Lia ZifyBool ZifyNat ZifyN.
From Verif Require Import Base Ucd UcdTables Norm Chars TextTables TextUtils UcdFacts NormFacts CharFacts DocTable SpecText TextFacts PipelineFacts DocFacts IsoFacts
  Utf8 Utf8Facts Input Output ReadFacts ReadInv ReadSession SpecRead ReadChunk SpecEscape EscapeFacts EscapeRun ReadProps KeepFacts ReadPieces SpecConv ConvFacts ReadMore
  SpecWrite WriteFacts WriteProps Copy CopyProps SpecStatus.
Import ListNotations.
Local Open Scope N_scope.
Arguments N.add : simpl never.
Arguments N.leb : simpl never.
Arguments N.ltb : simpl never.
Arguments N.eqb : simpl never.
Local Opaque pipeline.

Lemma starts_dec : forall s, starts_ok s \/ ~ starts_ok s.
Proof. intro s. rewrite <- starts_ok_iff. destruct (opt_all _ _); [now left|right; discriminate]. Qed.
Lemma ends_dec : forall s, ends_ok s \/ ~ ends_ok s.
Proof. intro s. rewrite <- ends_ok_iff. destruct (opt_all _ _); [now left|right; discriminate]. Qed.
Lemma write_text_refused : forall cr em w s, calm cr em w -> expect w = true -> ~ starts_ok s -> exists e w', write_text w s = (Some e, w').
Proof.
  intros cr em [b cr' ex an st es k] s (H1 & H2 & H3 & H4) HE HS. cbn in *. subst. destruct s as [|c s]; [exfalso; apply HS; intros c t E; discriminate|].
  rewrite write_text_eq by discriminate. unfold write_buffer. cbn [set_buf set_wst expect buffer crlf app wst after]. rewrite head_sent.
  destruct (opt_all is_basic_text_start (head_opt (c :: s))) eqn:E; [apply starts_ok_iff in E; now destruct HS|]. cbn. eauto.
Qed.
Lemma ground_ends : forall s, text_ground s = ZwjOrPrepend <-> ~ ends_ok s.
Proof.
  intro s. rewrite <- ends_ok_iff. unfold text_ground. destruct (last_opt s) as [c|]; cbn [opt_all]; [|split; [discriminate|intro H; now destruct H]].
  destruct (c =? LF) eqn:E1.
  - apply N.eqb_eq in E1. subst c. split; [discriminate|]. intro H. exfalso. apply H. vm_compute. reflexivity.
  - unfold ground_of. destruct (is_basic_text_end c); split; try discriminate; auto. intro H. now destruct H.
Qed.
Lemma flush_calm : forall cr em w cs, calm cr em w -> wst w = WGround (text_ground cs) -> ends_ok cs ->
  exists w', flush w = (None, w') /\ calm cr em w' /\ expect w' = true.
Proof.
  intros cr em w cs (C1 & C2 & C3 & C4) ST E. unfold flush. rewrite ST. destruct (text_ground cs) eqn:EG; try (exfalso; now apply (proj1 (ground_ends cs) EG));
  rewrite C4; unfold sink_call; cbn; rewrite app_nil_r; eexists; (split; [reflexivity|]); (split; [split; [exact C1|split; [exact C2|split; [exact C3|reflexivity]]]|reflexivity]).
Qed.
Lemma flush_refused : forall w cs, wst w = WGround (text_ground cs) -> ~ ends_ok cs -> exists e w', flush w = (Some e, w').
Proof. intros w cs ST E. apply ground_ends in E. unfold flush. rewrite ST, E. eauto. Qed.
Lemma first_end_reads : forall blen k i sc rs j rest, reads i sc (repeat blen k) = (rs, j, rest) -> reached_end rs ->
  exists k2 rs' n cs j2 rest2, reads i sc (repeat blen k2) = (rs' ++ [(ROk n End, cs)], j2, rest2) /\ forall n cs, ~ In (ROk n End, cs) rs'.
Proof.
  intros blen. induction k as [|k IH]; intros i sc rs j rest R RE; cbn [repeat reads] in R; [injection R as <- _ _; destruct RE as (a & b & c & E); destruct a; discriminate|].
  destruct (read i sc blen) as [[[r cs] i1] sc1] eqn:ER. destruct (reads i1 sc1 (repeat blen k)) as [[rs1 j1] rest1] eqn:R1. injection R as <- <- <-.
  assert (D : (exists n, r = ROk n End) \/ forall n, r <> ROk n End) by (destruct r as [n [| |]| |]; [right; discriminate|right; discriminate|left; eauto|right; discriminate|right; discriminate]).
  destruct D as [[n ->]|D].
  - exists 1%nat, [], n, cs, i1, sc1. cbn [repeat reads app]. rewrite ER. split; [reflexivity|intros ? ? []].
  - assert (RE1 : reached_end rs1).
    { destruct RE as (a & n & c & E). destruct a as [|x a]; [injection E as E _ _; exfalso; now apply (D n)|]. injection E as _ ->. now exists a, n, c. }
    destruct (IH _ _ _ _ _ R1 RE1) as (k2 & rs' & n & c & j2 & rest2 & R2 & NE). exists (S k2), ((r, cs) :: rs'), n, c, j2, rest2. cbn [repeat reads]. rewrite ER, R2. split; [reflexivity|].
    intros n' c' [K|K]; [injection K as K _; now apply (D n')|now apply (NE n' c')].
Qed.
Definition first_ok (w : writer) (rs : list (read_result * list N)) : Prop := expect w = true -> forall r cs t, rs = (r, cs) :: t -> starts_ok cs.
Lemma safe_cons : forall r cs rs, push_safe ((r, cs) :: rs) <-> ((forall n, r = ROk n Push -> ends_ok cs /\ forall r' cs' t, rs = (r', cs') :: t -> starts_ok cs') /\ push_safe rs).
Proof.
  intros r cs rs. split.
  - intro H. split; [intros n ->; exact (H [] n cs rs eq_refl)|]. intros a n c b E. apply (H ((r, cs) :: a) n c b). now rewrite E.
  - intros [H1 H2] a n c b E. destruct a as [|x a]; [injection E as -> <- <-; now apply (H1 n)|]. injection E as _ E. exact (H2 a n c b E).
Qed.
Lemma status_run : forall blen, (136 <= blen)%nat -> forall k i sc rs' m c j rest w cr em written, wf i -> no_fail sc -> calm cr em w ->
  reads i sc (repeat blen k) = (rs' ++ [(ROk m End, c)], j, rest) -> (forall n cs, ~ In (ROk n End, cs) rs') ->
  let rs := rs' ++ [(ROk m End, c)] in forall fuel, (k <= fuel)%nat ->
  (first_ok w rs /\ push_safe rs /\ exists w', copy_status fuel i sc w blen written = Some (CopyOk (written + str_len (received rs)), j, rest, w') /\
     calm cr (em ++ as_sent cr (received rs)) w' /\ wst w' = WGround (text_ground c)) \/
  (~ (first_ok w rs /\ push_safe rs) /\ exists e j' rest' w', copy_status fuel i sc w blen written = Some (CopyWrite e, j', rest', w')).
Proof.
  intros blen B. induction k as [|k IH]; intros i sc rs' m c j rest w cr em written W NF CA R NE rs fuel L; unfold rs in *; clear rs.
  { cbn in R. exfalso. injection R as E _ _. destruct rs'; discriminate. }
  destruct fuel as [|f]; [lia|]. cbn [repeat reads copy_status] in *. destruct (read i sc blen) as [[[r cs] i1] sc1] eqn:ER. pose proof (read_wf _ _ _ _ _ _ _ W ER) as W1.
  destruct (read_no_fail _ _ _ _ _ _ _ W NF ER) as (A1 & _ & NF1).
  assert (R1 : reads i sc (repeat blen 1) = ([(r, cs)], i1, sc1)) by (cbn [repeat reads]; now rewrite ER).
  pose proof (reads_valid _ _ _ _ _ _ W NF (legal_repeat blen 1 B) R1) as RV. inversion RV as [|? ? [RV1 _] _]; subst. cbn in RV1.
  destruct r as [n s| |]; [|congruence|congruence]. apply read_count in ER as EN; [|exact W].
  destruct (reads i1 sc1 (repeat blen k)) as [[rs1 j1] rest1] eqn:R2.
  assert (FST : first_ok w (rs' ++ [(ROk m End, c)]) <-> (expect w = true -> starts_ok cs)).
  { assert (E : exists t, rs' ++ [(ROk m End, c)] = (ROk n s, cs) :: t) by (injection R as E _ _; rewrite <- E; eauto). destruct E as [t ->]. unfold first_ok. split.
    - intros H X. exact (H X _ _ _ eq_refl).
    - intros H X r2 c2 t2 E. injection E as _ <- _. auto. }
  destruct (expect w) eqn:EX0; [destruct (starts_dec cs) as [SD|SD]|].
  2:{ right. split; [rewrite FST; intros [H _]; apply SD; auto|]. destruct (write_text_refused _ _ _ cs CA EX0 SD) as (e & w' & EW). rewrite EW. eauto. }
  all: assert (SC : expect w = true -> starts_ok cs) by (intro X; congruence || assumption).
  all: assert (FI : first_ok w (rs' ++ [(ROk m End, c)])) by (apply FST; intro; congruence || assumption).
  all: destruct (write_text_calm _ _ _ cs CA SC) as (w1 & EW & CA1 & EX & ST); rewrite EW.
  all: assert (GO : forall w2, calm cr (em ++ as_sent cr cs) w2 -> s <> End -> first_ok w2 rs1 /\ push_safe rs1 /\ (exists w', copy_status f i1 sc1 w2 blen (written + n) = Some (CopyOk (written + str_len (received (rs' ++ [(ROk m End, c)]))), j, rest, w') /\
      calm cr (em ++ as_sent cr (received (rs' ++ [(ROk m End, c)]))) w' /\ wst w' = WGround (text_ground c)) \/
      ~ (first_ok w2 rs1 /\ push_safe rs1) /\ (exists e j' rest' w', copy_status f i1 sc1 w2 blen (written + n) = Some (CopyWrite e, j', rest', w')));
    [intros w2 CA2 NS; destruct rs' as [|x rs']; [exfalso; injection R as E1 E2 _ _; subst s; congruence|];
      injection R as <- -> -> ->; assert (NE2 : forall n cs, ~ In (ROk n End, cs) rs') by (intros n' c' K; apply (NE n' c'); now right);
      assert (LK : (k <= f)%nat) by lia;
      destruct (IH i1 sc1 rs' m c j rest w2 cr _ (written + n)%nat W1 NF1 CA2 R2 NE2 f LK) as [(X1 & X2 & w' & X3 & X4 & X5)|X];
      [left; split; [exact X1|]; split; [exact X2|]; exists w'; cbn [app received flat_map fst snd]; fold (received (rs' ++ [(ROk m End, c)]));
       rewrite str_len_app, as_sent_app, app_assoc, <- EN, Nat.add_assoc; split; [exact X3|]; split; [exact X4|exact X5]
      |right; exact X]|].
  all: assert (EQ : rs' ++ [(ROk m End, c)] = (ROk n s, cs) :: rs1) by (now injection R as -> _ _).
  all: rewrite EQ, safe_cons in *; destruct s.
  all: try (destruct (GO w1 CA1 ltac:(discriminate)) as [(X1 & X2 & X3)|(X1 & X2)];
    [left; split; [exact FI|]; split; [split; [discriminate|exact X2]|exact X3]
    |right; split; [intros [_ [_ K]]; apply X1; split; [intro; congruence|exact K]|exact X2]]).
  all: try (exfalso; congruence).
  all: try (destruct (ends_dec cs) as [ED|ED];
    [destruct (flush_calm _ _ _ _ CA1 ST ED) as (w2 & EF & CA2 & EX2); rewrite EF; destruct (GO w2 CA2 ltac:(discriminate)) as [(X1 & X2 & X3)|(X1 & X2)];
      [left; split; [exact FI|]; split; [split; [intros n0 _; split; [exact ED|intros r' c' t' E; exact (X1 EX2 _ _ _ E)]|exact X2]|exact X3]
      |right; split; [intros [_ [K1 K2]]; apply X1; split; [intros _; exact (proj2 (K1 n eq_refl))|exact K2]|exact X2]]
    |destruct (flush_refused _ _ ST ED) as (e & w2 & EF); rewrite EF; right; split; [intros [_ [K _]]; destruct (K n eq_refl); contradiction|eauto]]).
  all: destruct rs' as [|x rs']; [|exfalso; injection EQ as -> _; apply (NE n cs); now left]; injection EQ as -> -> <-; cbn [repeat] in *.
  all: destruct k as [|k]; [|exfalso; cbn [repeat reads] in R2; destruct (read i1 sc1 blen) as [[[? ?] ?] ?]; destruct (reads _ _ _) as [[? ?] ?]; discriminate].
  all: cbn in R2; injection R2 as <- <-; injection R as <- <-.
  all: left; split; [exact FI|]; split; [split; [discriminate|intros a n0 c0 b E; destruct a; discriminate]|].
  all: exists w1; cbn [received flat_map fst snd app]; rewrite app_nil_r, EN; auto.
Qed.
Theorem status_exact : forall nel lsps sc blen cr p, no_fail sc -> (136 <= blen)%nat ->
  exists k rs j rest, reads (new_input nel lsps) sc (repeat blen k) = (rs, j, rest) /\ reached_end rs /\
  exists n, forall fuel, (n <= fuel)%nat -> exists res j' rest' w,
    copy_status fuel (new_input nel lsps) sc (new_writer cr false (mksink p [] false)) blen 0 = Some (res, j', rest', w) /\
    (push_safe rs -> res = CopyOk (str_len (received rs)) /\ j' = j /\ rest' = rest /\ emitted (inner w) = p ++ as_sent cr (received rs) /\
      exists w', close w = (None, w') /\ emitted (inner w') = emitted (inner w)) /\
    (~ push_safe rs -> exists e, res = CopyWrite e).
Proof.
  intros nel lsps sc blen cr p NF B. destruct (session_terminates nel lsps sc) as [n0 T].
  destruct (T (repeat blen n0)) as (k0 & rs0 & j0 & rest0 & R0 & RE0); [now apply legal_repeat|now rewrite repeat_length|].
  assert (FR : firstn k0 (repeat blen n0) = repeat blen (Nat.min k0 n0)).
  { clear. revert n0. induction k0 as [|k IH]; intros [|n]; try reflexivity. cbn [repeat firstn Nat.min]. now rewrite IH. }
  rewrite FR in R0. destruct (first_end_reads _ _ _ _ _ _ _ R0 RE0) as (k & rs' & m & c & j & rest & R & NE).
  set (rs := rs' ++ [(ROk m End, c)]) in *. assert (RE : reached_end rs) by (now exists rs', m, c).
  exists k, rs, j, rest. split; [exact R|]. split; [exact RE|]. exists k. intros fuel L. set (w0 := new_writer cr false (mksink p [] false)).
  assert (C0 : calm cr p w0) by (split; [|split; [|split]]; reflexivity).
  assert (F0 : first_ok w0 rs).
  { intros _ r cs t E. assert (ST : starts_ok (received rs)) by exact (proj2 (received_substr _ _ _ _ _ _ _ R NF)).
    pose proof (reads_valid _ _ _ _ _ _ (wf_new nel lsps) NF (legal_repeat blen k B) R) as RV. rewrite E in RV, ST. inversion RV as [|? ? [V1 V2] _]; subst. cbn in V1, V2.
    destruct r as [n s| |]; [|congruence|congruence]. cbn [received flat_map fst snd] in ST. intros x u ->. exact (ST x (u ++ received t) eq_refl). }
  destruct (status_run blen B k _ _ rs' m c j rest w0 cr p 0 (wf_new nel lsps) NF C0 R NE fuel L) as [(X1 & X2 & w & X3 & X4 & X5)|(X1 & e & j' & rest' & w & X2)].
  - fold rs in X1, X2, X3, X4. exists (CopyOk (str_len (received rs))), j, rest, w. split; [exact X3|]. split; [|intro K; now destruct K]. intros _. do 3 (split; [reflexivity|]).
    destruct X4 as (C1 & C2 & C3 & C4). rewrite C4. split; [reflexivity|]. destruct (session_is_text _ _ _ _ _ _ _ R NF RE) as [_ LT].
    assert (TG : text_ground c = Newline).
    { destruct c as [|x c _] using rev_ind; [reflexivity|]. unfold text_ground. rewrite last_opt_snoc. unfold rs in LT. unfold received in LT. rewrite flat_map_app in LT.
      cbn [flat_map fst snd] in LT. rewrite app_nil_r, app_assoc in LT. destruct LT as [K|[u K]]; [now apply app_eq_nil in K; destruct K|].
      apply app_inj_tail in K. destruct K as [_ ->]. reflexivity. }
    rewrite TG in X5. eexists. unfold close, check_nl. cbn [set_exp wst]. rewrite X5. cbn [and_then set_exp inner]. rewrite C4. cbn. split; [reflexivity|]. cbn. apply app_nil_r.
  - fold rs in X1. exists (CopyWrite e), j', rest', w. split; [exact X2|]. split; [intro K; destruct X1; auto|eauto].
Qed.
