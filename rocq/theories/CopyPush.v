(** copy_text_using_status from a stream that pushes at line ends. *)
From Coq Require Import NArith Arith List Bool Lia ZifyBool ZifyNat ZifyN.
From Verif Require Import Base Ucd UcdTables Norm Chars TextTables TextUtils UcdFacts NormFacts CharFacts DocTable SpecText TextFacts PipelineFacts DocFacts IsoFacts
  Utf8 Utf8Facts Input Output ReadFacts ReadInv ReadSession SpecRead ReadChunk SpecEscape EscapeFacts EscapeRun ReadProps KeepFacts ReadPieces SpecConv ConvFacts ReadMore
  SpecWrite WriteFacts WriteProps Copy CopyProps.
Import ListNotations.
Local Open Scope N_scope.
Arguments N.add : simpl never.
Arguments N.leb : simpl never.
Arguments N.ltb : simpl never.
Arguments N.eqb : simpl never.
Local Opaque pipeline.


(** The stream has no escape sequences and pushes only after a line end. *)
Definition pushes_at_lines (sc : list event) : Prop :=
  forall cs s, In (Chunk cs s) sc -> ~ In 0x1B cs /\ (s = Push -> exists t, cs = t ++ [0xA]).

Definition plain_state (s : state) : Prop := match s with Ground _ | Cr | Ff => True | _ => False end.
Lemma tstep_plain : forall nel lsps x c, plain_state (snd x) -> c <> ESC -> plain_state (snd (snd (tstep nel lsps x c))).
Proof.
  intros nel lsps [e s] c H HC. assert (E : (c =? ESC) = false) by (apply N.eqb_neq; exact HC).
  assert (G : forall i, plain_state (st (step_ground i c))).
  { intro i. unfold step_ground. rewrite E. destruct (c =? LF); [exact I|]. destruct (c =? CR); [exact I|]. destruct (c =? FF); exact I. }
  destruct s; try destruct H; unfold tstep, stub, step; cbn [fst snd st].
  - apply G.
  - destruct (c =? LF); [exact I|apply G].
  - destruct (c =? FF); [exact I|apply G].
Qed.
Lemma trans_plain : forall nel lsps cs x, plain_state (snd x) -> ~ In ESC cs -> plain_state (snd (snd (trans nel lsps x cs))).
Proof.
  induction cs as [|c cs IH]; intros x H N; [exact H|]. cbn [trans]. pose proof (tstep_plain nel lsps x c H) as S.
  destruct (tstep nel lsps x c) as [o x']. cbn [snd] in S. specialize (IH x'). destruct (trans nel lsps x' cs) as [o' x'']. cbn [snd] in *.
  apply IH; [apply S; intros ->; apply N; now left|]. intro K. apply N. now right.
Qed.
Lemma tstep_LF : forall nel lsps x, plain_state (snd x) -> tstep nel lsps x LF = ([LF], (false, Ground true)).
Proof. intros nel lsps [e s] H. destruct s; try destruct H; reflexivity. Qed.
Lemma body_in : forall b raw c, In c (body b raw) -> In c raw.
Proof. intros b raw c H. destruct b; [|exact H]. destruct raw as [|x raw]; [exact H|]. cbn in H. destruct (x =? BOM); [now right|exact H]. Qed.
Lemma body_snoc : forall b t, exists t', body b (t ++ [LF]) = t' ++ [LF].
Proof.
  intros [|] t; [|now exists t]. destruct t as [|x t]; [now exists []|]. cbn. destruct (x =? BOM); [now exists t|now exists (x :: t)].
Qed.
Lemma fin_plain : forall s l x, plain_state (snd x) -> plain_state (snd (snd (fin s l x))).
Proof. intros s l [e q] H. unfold fin. destruct s; destruct q as [[|]| | | | | | |]; try destruct H; exact I. Qed.
Lemma absorb_plain : forall nel lsps a raw s new a', absorb nel lsps a raw s = (new, a') -> plain_state (snd (a_ts a)) -> ~ In ESC raw -> plain_state (snd (a_ts a')).
Proof.
  intros nel lsps a raw s new a' H P N. unfold absorb, pushed in H.
  pose proof (trans_plain nel lsps (body (a_start a) raw) (a_ts a) P (fun K => N (body_in _ _ _ K))) as T.
  destruct (trans nel lsps (a_ts a) (body (a_start a) raw)) as [o x]. cbn [snd] in T. pose proof (fin_plain s (last_opt (a_res a ++ o)) x T) as F.
  destruct (fin s (last_opt (a_res a ++ o)) x) as [o2 x2]. injection H as _ <-. exact F.
Qed.
(** After a push at a line end nothing is kept back. *)
Lemma absorb_push : forall nel lsps a t new a', absorb nel lsps a (t ++ [LF]) Push = (new, a') -> plain_state (snd (a_ts a)) -> ~ In ESC t ->
  a_res a' = [] /\ a_ts a' = (true, Ground true) /\ exists u, new = u ++ [LF].
Proof.
  intros nel lsps a t new a' H P N. unfold absorb, pushed in H. destruct (body_snoc (a_start a) t) as [t' EB]. rewrite EB in H.
  assert (N' : ~ In ESC t').
  { intro K. assert (K' : In ESC (t ++ [LF])) by (apply (body_in (a_start a)); rewrite EB; apply in_or_app; now left).
    apply in_app_or in K'. destruct K' as [K'|[K'|[]]]; [auto|discriminate]. }
  rewrite trans_app in H. pose proof (trans_plain nel lsps t' (a_ts a) P N') as T. destruct (trans nel lsps (a_ts a) t') as [o x]. cbn [snd] in T.
  cbn [trans] in H. rewrite tstep_LF in H by exact T. cbn [app] in H. rewrite app_assoc, last_opt_snoc in H.
  change (fin Push (Some LF) (false, Ground true)) with (@nil BinNums.N, (false, Ground true)) in H. cbv beta iota zeta in H. rewrite app_nil_r, app_assoc in H.
  destruct (complete_snoc (a_res a ++ o) LF) as [C1 C2]; [now left|]. rewrite C1, C2 in H. injection H as <- <-. split; [reflexivity|]. split; [reflexivity|].
  exists (pipeline (a_res a ++ o)). now rewrite pipeline_LF, pipeline_nil.
Qed.
Lemma restart : forall a, a_res a = [] -> a_ts a = (true, Ground true) -> ainv [] a.
Proof.
  intros a H1 H2. destruct ainv_new as [A1 A2 A3 A4 A5 A6]. cbn in A5, A6. split; auto; [now rewrite H1|now rewrite H1, H2].
Qed.
Lemma starts_from : forall i sc sizes rs j rest, wf i -> no_fail sc -> ainv [] (abs_of i) -> avail i = [] -> reads i sc sizes = (rs, j, rest) -> starts_ok (received rs).
Proof.
  intros i sc sizes rs j rest W NF I A R. rewrite (received_delivered _ _ _ _ _ _ W NF R).
  destruct (reads_spec _ _ _ _ _ _ W R) as (W1 & N1 & L1 & evs & new & TK & FD & AV). rewrite A in AV. cbn [app] in AV.
  pose proof (feed_inv _ _ _ _ _ _ _ I FD) as I2. cbn [app] in I2.
  intros c t E. pose proof (proj1 (starts_ok_iff _) (i_start _ _ I2)) as S. rewrite AV, E in S. exact (S c (t ++ avail j) eq_refl).
Qed.

Lemma pushes_tail : forall e t, pushes_at_lines (e :: t) -> pushes_at_lines t.
Proof. intros e t H cs s K. apply (H cs s). now right. Qed.
Lemma inner_pushes : forall sc x sc', pushes_at_lines sc -> inner_read sc = (x, sc') ->
  pushes_at_lines sc' /\ (forall raw s, x = Some (raw, s) -> ~ In ESC raw /\ (s = Push -> exists t, raw = t ++ [LF])).
Proof.
  intros sc x sc' H EI. destruct sc as [|[c s|] t]; cbn in EI.
  - injection EI as <- <-. split; [exact H|]. intros raw s E. injection E as <- <-. split; [intros []|discriminate].
  - destruct (H c s (or_introl eq_refl)) as [H1 H2]. assert (K : forall raw s', Some (c, s) = Some (raw, s') -> ~ In ESC raw /\ (s' = Push -> exists t, raw = t ++ [LF])) by (intros raw s' E; injection E as <- <-; auto).
    destruct s; injection EI as <- <-; (split; [|exact K]); [eapply pushes_tail; eauto|eapply pushes_tail; eauto|intros c' s' []].
  - injection EI as <- <-. split; [eapply pushes_tail; eauto|discriminate].
Qed.
Lemma read_pushes : forall i sc b r cs j sc', wf i -> pushes_at_lines sc -> plain_state (st i) -> read i sc b = (r, cs, j, sc') ->
  pushes_at_lines sc' /\ plain_state (st j) /\ (forall n, r = ROk n Push -> avail j = [] /\ ainv [] (abs_of j) /\ exists u, cs = u ++ [LF]).
Proof.
  intros i sc b r cs j sc' W HP PL H.
  destruct (read_spec _ _ _ _ _ _ _ W H) as (_ & _ & _ & C).
  destruct C as [(-> & _ & _ & -> & ->)|[(-> & -> & _ & _ & EA & _ & _)|[(-> & EI & _ & _ & EA & _)|(raw & s & new & cs2 & EI & _ & _ & AB & EC & EN & _ & D)]]].
  - split; [exact HP|]. split; [exact PL|]. discriminate.
  - split; [exact HP|]. split; [|discriminate]. apply (f_equal (fun a => snd (a_ts a))) in EA. cbn in EA. now rewrite EA.
  - split; [exact (proj1 (inner_pushes _ _ _ HP EI))|]. split; [|discriminate]. apply (f_equal (fun a => snd (a_ts a))) in EA. cbn in EA. now rewrite EA.
  - destruct (inner_pushes _ _ _ HP EI) as [HP' K]. destruct (K raw s eq_refl) as [K1 K2]. split; [exact HP'|].
    split; [exact (absorb_plain _ _ _ _ _ _ _ AB PL K1)|]. intros n ->. destruct D as [(ER & AV & _)|(ER & _)]; [|discriminate]. injection ER as -> <-.
    destruct (K2 eq_refl) as [t ->]. destruct (absorb_push _ _ _ _ _ _ AB PL) as (R1 & R2 & u & EU); [intro X; apply K1; apply in_or_app; now left|].
    split; [exact AV|]. split; [now apply restart|]. exists (avail i ++ u). rewrite EC, app_assoc_reverse. f_equal. rewrite <- EU, EN, AV. now rewrite app_nil_r.
Qed.
(** The loop gives what the reads give. *)
Lemma push_trace : forall fuel i sc w blen written res i' sc' w' cr em, wf i -> no_fail sc -> pushes_at_lines sc -> plain_state (st i) -> (136 <= blen)%nat -> calm cr em w ->
  (forall k rs j rest, reads i sc (repeat blen k) = (rs, j, rest) -> expect w = true -> starts_ok (received rs)) ->
  copy_status fuel i sc w blen written = Some (res, i', sc', w') ->
  exists k rs, reads i sc (repeat blen k) = (rs, i', sc') /\ reached_end rs /\ res = CopyOk (written + str_len (received rs)) /\
    calm cr (em ++ as_sent cr (received rs)) w' /\ exists n cs rs', rs = rs' ++ [(ROk n End, cs)] /\ wst w' = WGround (text_ground cs).
Proof.
  induction fuel as [|f IH]; intros i sc w blen written res i' sc' w' cr em W NF NP PL B CA HS H; cbn [copy_status] in H; [discriminate|].
  destruct (read i sc blen) as [[[r cs] i1] sc1] eqn:ER. pose proof (read_wf _ _ _ _ _ _ _ W ER) as W1.
  destruct (read_pushes _ _ _ _ _ _ _ W NP PL ER) as (NP1 & PL1 & NP2). destruct (read_no_fail _ _ _ _ _ _ _ W NF ER) as (A1 & _ & NF1).
  assert (R1 : reads i sc (repeat blen 1) = ([(r, cs)], i1, sc1)) by (cbn [repeat reads]; now rewrite ER).
  pose proof (reads_valid _ _ _ _ _ _ W NF (legal_repeat blen 1 B) R1) as RV. inversion RV as [|? ? [RV1 _] _]; subst. cbn in RV1.
  destruct r as [n s| |]; [|congruence|congruence].
  assert (SC : expect w = true -> starts_ok cs).
  { intro X. pose proof (HS _ _ _ _ R1 X) as K. cbn [received flat_map fst snd] in K. now rewrite app_nil_r in K. }
  destruct (write_text_calm _ _ _ cs CA SC) as (w1 & EW & CA1 & EX & ST). rewrite EW in H.
  apply read_count in ER as EN; [|exact W].
  assert (GO : forall s0 w2, s = s0 -> calm cr (em ++ as_sent cr cs) w2 -> (forall k rs j rest, reads i1 sc1 (repeat blen k) = (rs, j, rest) -> expect w2 = true -> starts_ok (received rs)) ->
    copy_status f i1 sc1 w2 blen (written + n) = Some (res, i', sc', w') ->
    exists k rs, reads i sc (repeat blen k) = (rs, i', sc') /\ reached_end rs /\ res = CopyOk (written + str_len (received rs)) /\
    calm cr (em ++ as_sent cr (received rs)) w' /\ exists n cs rs', rs = rs' ++ [(ROk n End, cs)] /\ wst w' = WGround (text_ground cs)).
  { intros s0 w2 _ CA2 HS2 H2.
    destruct (IH i1 sc1 w2 blen (written + n)%nat res i' sc' w' cr _ W1 NF1 NP1 PL1 B CA2 HS2 H2) as (k & rs & R & RE & EQ & CA3 & n' & cs' & rs' & E1 & E2).
    exists (S k), ((ROk n s, cs) :: rs). cbn [repeat reads]. rewrite ER, R. split; [reflexivity|].
    cbn [received flat_map fst snd]. fold (received rs). split; [destruct RE as (a & b & c & ->); now exists ((ROk n s, cs) :: a), b, c|].
    rewrite str_len_app, as_sent_app, app_assoc. split; [rewrite EQ; f_equal; lia|]. split; [exact CA3|]. exists n', cs', ((ROk n s, cs) :: rs'). rewrite E1. auto. }
  destruct s.
  - apply (GO Active w1); auto. intros k rs j rest _ X. congruence.
  - destruct (NP2 n eq_refl) as (AV & AI & u & EU). assert (TG : text_ground cs = Newline) by (unfold text_ground; now rewrite EU, last_opt_snoc).
    rewrite TG in ST. unfold flush in H. rewrite ST in H. destruct CA1 as (C1 & C2 & C3 & C4). rewrite C4 in H. unfold sink_call in H. cbn in H. rewrite app_nil_r in H.
    refine (GO Push _ eq_refl _ _ H).
    + split; [exact C1|]. split; [exact C2|]. split; [exact C3|]. reflexivity.
    + intros k rs j rest R _. exact (starts_from _ _ _ _ _ _ W1 NF1 AI AV R).
  - injection H as <- <- <- <-. exists 1%nat, [(ROk n End, cs)]. split; [exact R1|].
    split; [now exists [], n, cs|]. cbn [received flat_map fst snd]. rewrite app_nil_r. split; [now rewrite EN|]. split; [exact CA1|]. exists n, cs, []. auto.
Qed.
Theorem copy_push_copies : forall nel lsps sc blen cr p, no_fail sc -> pushes_at_lines sc -> (136 <= blen)%nat ->
  exists n, forall fuel, (n <= fuel)%nat -> exists k rs j rest w,
    reads (new_input nel lsps) sc (repeat blen k) = (rs, j, rest) /\ reached_end rs /\
    copy_status fuel (new_input nel lsps) sc (new_writer cr false (mksink p [] false)) blen 0 = Some (CopyOk (str_len (received rs)), j, rest, w) /\
    emitted (inner w) = p ++ as_sent cr (received rs) /\ exists w', close w = (None, w') /\ emitted (inner w') = emitted (inner w).
Proof.
  intros nel lsps sc blen cr p NF NP B. exists (S (measure (new_input nel lsps) sc)). intros fuel HF. set (w0 := new_writer cr false (mksink p [] false)).
  destruct (copy_status fuel (new_input nel lsps) sc w0 blen 0) as [[[[res j] rest] w]|] eqn:EC.
  2:{ exfalso. refine (status_total fuel _ _ w0 blen 0 [] (wf_new nel lsps) (new_ainv nel lsps) _ _ EC); [exact B|lia]. }
  assert (C0 : calm cr p w0) by (split; [|split; [|split]]; reflexivity).
  destruct (push_trace _ _ _ _ _ _ _ _ _ _ cr p (wf_new nel lsps) NF NP I B C0 (fun k rs j rest R _ => proj2 (received_substr _ _ _ _ _ _ _ R NF)) EC)
    as (k & rs & R & RE & -> & CA & n & cs & rs' & E1 & E2).
  exists k, rs, j, rest, w. split; [exact R|]. split; [exact RE|]. split; [reflexivity|]. destruct CA as (C1 & C2 & C3 & C4). rewrite C4. split; [reflexivity|].
  destruct (session_is_text _ _ _ _ _ _ _ R NF RE) as [_ LT].
  assert (TG : text_ground cs = Newline).
  { destruct cs as [|c cs _] using rev_ind; [reflexivity|]. unfold text_ground. rewrite last_opt_snoc. rewrite E1 in LT. unfold received in LT. rewrite flat_map_app in LT.
    cbn [flat_map fst snd] in LT. rewrite app_nil_r, app_assoc in LT. destruct LT as [K|[u K]]; [now apply app_eq_nil in K; destruct K|].
    apply app_inj_tail in K. destruct K as [_ ->]. reflexivity. }
  rewrite TG in E2. eexists. unfold close, check_nl. cbn [set_exp wst]. rewrite E2. cbn [and_then set_exp inner]. rewrite C4. cbn. split; [reflexivity|]. cbn. apply app_nil_r.
Qed.
