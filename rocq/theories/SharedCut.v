(** Several writers over one stream, with calls that are cut off. *)
From Coq Require Import NArith Arith List Bool Lia ZifyBool ZifyNat ZifyN.
From Verif Require Import Base Ucd UcdTables Norm Chars TextTables TextUtils UcdFacts NormFacts CharFacts DocTable SpecText TextFacts PipelineFacts DocFacts IsoFacts
  Utf8 Utf8Facts SpecUtf8 Utf8Lossy Input Output ReadFacts ReadInv ReadSession SpecRead ReadChunk SpecEscape EscapeFacts EscapeRun ReadProps KeepFacts ReadPieces SpecConv ConvFacts DocProps LossyProps StringProps
  SpecWrite WriteFacts WriteProps SpecMore CanonProps SpecCat CatProps SpecCrash CrashProps SpecDamage DamageProps Shared SpecShared SharedProps.
Import ListNotations.
Local Open Scope N_scope.
Arguments N.add : simpl never.
Arguments N.leb : simpl never.
Arguments N.ltb : simpl never.
Arguments N.eqb : simpl never.
Local Opaque pipeline.

(** The characters that are sent. *)
Definition sendable (c : N) : Prop := allowed c \/ c = 0xD.
Lemma sent_sendable : forall cr t, Forall allowed t -> Forall sendable (as_sent cr t).
Proof.
  intros cr t A. destruct cr; [|eapply Forall_impl; [|exact A]; now left]. induction A as [|c t AC A IH]; [constructor|].
  change (c :: t) with ([c] ++ t). rewrite as_sent_app. apply Forall_app. split; [|exact IH]. cbn. destruct (N.eqb_spec c 10) as [->|]; [apply Forall_cons; [now right|]|]; apply Forall_cons; try apply Forall_nil; left; exact AC.
Qed.
Lemma sendable_special : forall c, sendable c -> c <> 0x1B /\ c <> 0xFEFF.
Proof.
  intros c [A| ->]; [|split; discriminate]. assert (C : all_clean [c]) by (apply Forall_allowed_clean; now constructor). apply Forall_inv in C. apply clean_special in C. tauto.
Qed.
Lemma spec_sendable : forall cr d o b d', plain_op o -> spec_op cr d o = (b, d') -> exists a, sent d' = sent d ++ a /\ Forall sendable a.
Proof.
  intros cr d o b d' HP H.
  assert (NIL : forall y, sent y = sent d -> d' = y -> exists a, sent d' = sent d ++ a /\ Forall sendable a) by (intros y S ->; exists []; rewrite app_nil_r; split; [exact S|constructor]).
  assert (SEND : forall y, Forall allowed y -> spec_send cr d y = (b, d') -> exists a, sent d' = sent d ++ a /\ Forall sendable a).
  { intros y AL SS. pose proof (sent_sendable cr y AL) as K. unfold spec_send in SS. destruct (fresh d && _); [injection SS as _ <-; now apply (NIL (fail d))|].
    destruct (outcomes d) as [|[|n] l]; injection SS as _ <-; cbn [sent]; [exists (as_sent cr y)|exists (as_sent cr y)|exists (firstn n (as_sent cr y))]; (split; [reflexivity|]); [exact K|exact K|].
    rewrite <- (firstn_skipn n (as_sent cr y)) in K. now apply Forall_app in K. }
  assert (CALL : spec_call d = (b, d') -> exists a, sent d' = sent d ++ a /\ Forall sendable a).
  { intro SS. unfold spec_call in SS. destruct (outcomes d) as [|[|n] l]; injection SS as _ <-; (eapply NIL; [|reflexivity]); reflexivity. }
  assert (WRITE : forall s, spec_write cr d s = (b, d') -> exists a, sent d' = sent d ++ a /\ Forall sendable a).
  { intros s SS. unfold spec_write in SS. destruct (failed d); [injection SS as _ <-; now apply (NIL d)|]. destruct (forallb allowedb s) eqn:AL; cbn [negb] in SS; [|injection SS as _ <-; now apply (NIL (fail d))]. apply (SEND (pipeline s)); [|exact SS]. now apply allowed_pipeline. }
  destruct o as [s|s|bs| | |]; cbn [spec_op] in H.
  - now apply (WRITE s).
  - unfold spec_write_text in H. destruct (failed d); [injection H as _ <-; now apply (NIL d)|]. apply (SEND s); [|exact H]. apply substr_allowed. exact (proj2 HP).
  - destruct (decode bs) as [[|c cs] [|x rest]]; [now apply (WRITE [])|injection H as _ <-; now apply (NIL (fail d))|now apply (WRITE (c :: cs))|now apply (WRITE (c :: cs))].
  - unfold spec_flush in H. destruct (failed d); [injection H as _ <-; now apply (NIL d)|]. destruct (opt_all _ _); [now apply CALL|injection H as _ <-; now apply (NIL (fail d))].
  - unfold spec_close in H. destruct (failed d); [injection H as _ <-; now apply (NIL d)|]. destruct (last_opt (SpecWrite.text d)) as [c|]; [destruct (c =? 10)|]; first [now apply CALL|injection H as _ <-; now apply (NIL (fail d))].
  - injection H as _ <-. now apply (NIL (fail d)).
Qed.
Lemma shared_sendable : forall crs s ds k o r s' a, agrees crs s ds -> plain_op o -> shared_op s k o = (r, s') -> accepted s' = accepted s ++ a -> Forall sendable a.
Proof.
  intros crs s ds k o r s' a A HP H E. unfold shared_op in H. change (set_inner (member s k) _) with (at_stream s k) in H.
  destruct (op_refines (crs k) (ds k) (at_stream s k) o (A k) HP) as [_ RW]. destruct (do_op (at_stream s k) o) as [r1 w1]. injection H as <- <-. cbn [fst snd] in RW.
  destruct (spec_op (crs k) (ds k) o) as [b d1] eqn:ES. cbn [snd] in RW. destruct (spec_sendable _ _ _ _ _ HP ES) as (x & SX & FX). destruct RW as (_ & _ & _ & E1 & _). cbn [accepted] in E. rewrite E1, SX in E.
  destruct (agrees_sent crs s ds k A) as [-> _] in E. apply app_inv_head in E. now subst.
Qed.
(** The calls that succeeded wrote allowed text. *)
Definition good_calls (h : list (nat * wop)) (rs : list wresult) : Prop := Forall (fun o => Forall allowed (op_text o)) (succeeded h rs).
Lemma history_pieces : forall h crs s ds rs s', agrees crs s ds -> plain_history h -> shared_ops s h = (rs, s') ->
  exists ps, went crs h rs ps /\ accepted s' = accepted s ++ concat ps /\ Forall sendable (concat ps) /\ good_calls h rs.
Proof.
  induction h as [|[k o] h IH]; intros crs s ds rs s' A HP H; cbn [shared_ops] in H.
  - injection H as <- <-. exists []. cbn. rewrite app_nil_r. split; [constructor|]. split; [reflexivity|]. split; constructor.
  - destruct (shared_op s k o) as [r s1] eqn:E1. destruct (shared_ops s1 h) as [rs1 s2] eqn:E2. injection H as <- <-.
    destruct (shared_step crs s ds k o r s1 A (Forall_inv HP) E1) as (ds1 & A1 & (a & SA & BA & OK & _) & _).
    destruct (IH crs s1 ds1 rs1 s2 A1 (Forall_inv_tail HP) E2) as (ps & W & AC & FS & GC).
    destruct (agrees_sent crs s ds k A) as [S0 _], (agrees_sent crs s1 ds1 k A1) as [S1 _]. rewrite S0, S1 in SA. pose proof (shared_sendable crs s ds k o r s1 a A (Forall_inv HP) E1 SA) as FA.
    exists (a :: ps). split; [|split; [|split]].
    + destruct r as [e|]; [now apply went_failed|]. destruct (OK eq_refl) as (-> & _). now apply went_ok.
    + rewrite AC, SA. cbn [concat]. now rewrite <- app_assoc.
    + cbn [concat]. now apply Forall_app.
    + unfold good_calls in *. destruct r as [e|]; cbn [succeeded]; [exact GC|]. constructor; [|exact GC]. now destruct (OK eq_refl) as (_ & AL & _).
Qed.

(** ** Before the conversion *)
Fixpoint raw (good : bool) (h : list (nat * wop)) (rs : list wresult) (o : list N) : Prop :=
  match h, rs with
  | (_, x) :: h', None :: rs' => if is_write x then
      if good then exists o', o = op_text x ++ o' /\ raw true h' rs' o'
      else exists d o', o = d ++ 0xA :: after_first (op_text x) ++ o' /\ raw true h' rs' o'
    else raw good h' rs' o
  | (_, x) :: h', Some _ :: rs' => raw (good && negb (is_write x)) h' rs' o
  | _, _ => line_terminated o /\ (good = true -> o = [])
  end.
Lemma first_line : forall u, exists f, u ++ [0xA] = f ++ 0xA :: after_first (u ++ [0xA]).
Proof.
  induction u as [|c u [f IH]]; [now exists []|]. cbn [app after_first]. destruct (N.eqb_spec c 0xA) as [->|_]; [now exists []|]. exists (c :: f). cbn [app]. now rewrite <- IH.
Qed.
Lemma after_lines : forall u, line_terminated (after_first (u ++ [0xA])).
Proof.
  induction u as [|c u IH]; [left; reflexivity|]. cbn [app after_first]. destruct (c =? 0xA); [right; now exists u|exact IH].
Qed.
Lemma nonwrite_text : forall o, is_write o = false -> op_text o = [].
Proof. intros o H. destruct o; try discriminate; reflexivity. Qed.
Lemma sent_nil : forall cr, as_sent cr [] = [].
Proof. intros [|]; reflexivity. Qed.
Lemma no_escape : forall x, Forall sendable x -> ~ In 0x1B x.
Proof. intros x F I. rewrite Forall_forall in F. now destruct (sendable_special _ (F _ I)). Qed.
Definition tail_ok (rr : list (list N)) (e : list N) : Prop := line_terminated (concat rr ++ e) /\ (last_opt rr = Some [0xA] \/ rr = [] -> e = []).
Lemma tail_app : forall ra rr e, last_opt ra = Some [0xA] -> tail_ok (ra ++ rr) e -> tail_ok rr e.
Proof.
  intros ra rr e L [T E]. destruct rr as [|r rr] using rev_ind.
  - rewrite app_nil_r in *. rewrite (E (or_introl L)). split; [now left|]. auto.
  - split.
    + rewrite concat_app, <- app_assoc in T. destruct T as [T|[u T]]; [apply app_eq_nil in T; destruct T as [_ ->]; now left|]. destruct (concat (rr ++ [r]) ++ e) as [|c w] using rev_ind; [now left|]. rewrite app_assoc in T. apply app_inj_tail in T. destruct T as [_ ->]. right. now exists w.
    + intros [K|K]; [|destruct rr; discriminate]. apply E. left. rewrite last_opt_snoc in K. rewrite app_assoc, last_opt_snoc. exact K.
Qed.
Theorem pieces_raw : forall crs nel lsps h rs ps, went crs h rs ps -> Forall (fun x => line_op (snd x)) h -> good_calls h rs -> forall good d, (good = true -> d = []) -> Forall sendable (d ++ concat ps) ->
  exists rr, replaced true (char_rep nel lsps) (d ++ concat ps) rr /\ forall e, tail_ok rr e -> raw good h rs (concat rr ++ e).
Proof.
  intros crs nel lsps h rs ps W. induction W as [|k o h rs ps W IH|k o e h rs p ps B W IH]; intros HL GC good d DG FS.
  - cbn [concat] in *. rewrite app_nil_r in *. destruct (replaced_total nel lsps d) as [rr R]. exists rr. split; [exact R|]. intros e [T E]. cbn [raw]. split; [exact T|]. intro G. rewrite (DG G) in R. apply replaced_nil_inv in R. subst rr. rewrite E by auto. reflexivity.
  - pose proof (Forall_inv HL) as L. cbn [snd] in L. unfold line_op in L. specialize (IH (Forall_inv_tail HL)). unfold good_calls in GC. cbn [succeeded] in GC. specialize (IH (Forall_inv_tail GC)). pose proof (Forall_inv GC) as AL. cbn beta in AL.
    cbn [concat] in *. cbn [raw]. destruct (is_write o) eqn:EW.
    + destruct (L eq_refl) as [u EU]. assert (CL : all_clean (op_text o)) by now apply Forall_allowed_clean. rewrite app_assoc in FS. apply Forall_app in FS. destruct FS as [F1 F2].
      destruct (IH true [] (fun _ => eq_refl) F2) as (rr & R & K). cbn [app] in R. destruct good.
      * rewrite (DG eq_refl). cbn [app]. assert (LS : last_opt (map (fun c : N => [c]) (op_text o)) = Some [0xA]) by (rewrite EU; apply last_single, last_opt_snoc).
        exists (map (fun c => [c]) (op_text o) ++ rr). split.
        -- apply replaced_app; [now apply sent_replaced|rewrite EU; apply sent_ends|exact LS|exact R].
        -- intros e T. exists (concat rr ++ e). rewrite concat_app, concat_singles, <- app_assoc. split; [reflexivity|]. apply K. exact (tail_app _ _ _ LS T).
      * destruct (first_line u) as [f EF]. rewrite <- EU in EF. set (l := after_first (op_text o)) in *.
        assert (ES : as_sent (crs k) (op_text o) = (as_sent (crs k) f ++ line_mark (crs k)) ++ [0xA] ++ as_sent (crs k) l).
        { rewrite EF. change (0xA :: l) with ([0xA] ++ l). rewrite !as_sent_app, <- !app_assoc. f_equal. now destruct (crs k). }
        set (j := d ++ as_sent (crs k) f ++ line_mark (crs k)) in *.
        assert (EJ : d ++ as_sent (crs k) (op_text o) = (j ++ [0xA]) ++ as_sent (crs k) l) by (unfold j; rewrite ES, <- !app_assoc; reflexivity).
        rewrite EJ in F1. apply Forall_app in F1. destruct F1 as [FJ FL]. destruct (replaced_total nel lsps (j ++ [0xA])) as [rd RD]. pose proof (line_end _ _ _ _ RD (no_escape _ FJ) j eq_refl) as LD.
        assert (CLL : all_clean l) by (rewrite EF in CL; apply Forall_app in CL; destruct CL as [_ CL]; exact (Forall_inv_tail CL)).
        assert (TL : line_terminated l) by (unfold l; rewrite EU; apply after_lines).
        assert (RA : replaced true (char_rep nel lsps) ((j ++ [0xA]) ++ as_sent (crs k) l) (rd ++ map (fun c => [c]) l)) by (apply replaced_app; [exact RD|now exists j|exact LD|now apply sent_replaced]).
        pose proof (last_lines rd l LD TL) as LA.
        exists ((rd ++ map (fun c => [c]) l) ++ rr). split.
        -- rewrite app_assoc, EJ. apply replaced_app; [exact RA| |exact LA|exact R].
           destruct TL as [->|[v ->]]; [rewrite sent_nil, app_nil_r; now exists j|]. destruct (sent_ends (crs k) v) as [x ->]. exists ((j ++ [0xA]) ++ x). now rewrite app_assoc.
        -- intros e T. destruct (last_line rd LD) as [v EV]. exists v, (concat rr ++ e). rewrite !concat_app, concat_singles, EV, <- !app_assoc. split; [reflexivity|]. apply K. exact (tail_app _ _ _ LA T).
    + rewrite (nonwrite_text o EW), sent_nil in *. cbn [app] in *. exact (IH good d DG FS).
  - unfold good_calls in GC. cbn [succeeded] in GC. specialize (IH (Forall_inv_tail HL) GC). cbn [concat] in *. cbn [raw]. rewrite app_assoc in *. apply IH; [|exact FS].
    intro G. apply andb_prop in G. destruct G as [G NW]. rewrite (DG G). apply negb_true_iff in NW. rewrite (nonwrite_text o NW), sent_nil in B. destruct B as [z B]. symmetry in B. now apply app_eq_nil in B.
Qed.

(** ** The text that is read *)
Lemma raw_guard : forall h rs o g, raw false h rs o -> line_terminated o -> (g = [] \/ o <> []) -> raw false h rs (g ++ o).
Proof.
  induction h as [|[k x] h IH]; intros rs o g R T G.
  - cbn [raw] in *. split; [|discriminate]. destruct T as [->|[u ->]]; [destruct G as [->|G]; [now left|congruence]|]. right. exists (g ++ u). now rewrite app_assoc.
  - destruct rs as [|[e|] rs]; cbn [raw] in *.
    + split; [|discriminate]. destruct T as [->|[u ->]]; [destruct G as [->|G]; [now left|congruence]|]. right. exists (g ++ u). now rewrite app_assoc.
    + apply IH; auto.
    + destruct (is_write x); [|apply IH; auto]. destruct R as (d & o' & -> & R). exists (g ++ d), o'. now rewrite app_assoc.
Qed.
Lemma raw_start : forall h rs o g, raw true h rs o -> line_terminated o -> Forall (fun x => line_op (snd x)) h -> length rs = length h ->
  (g = [] \/ o <> [] /\ (forall c u, o = c :: u -> is_basic_text_start c = false)) -> starts_ok (concat (map op_text (succeeded h rs))) -> raw true h rs (g ++ o).
Proof.
  induction h as [|[k x] h IH]; intros rs o g R T HL LR G S.
  - cbn [raw] in *. destruct R as [_ R]. rewrite (R eq_refl) in *. destruct G as [->|[G _]]; [now split|congruence].
  - destruct rs as [|[e|] rs]; [discriminate| |]; cbn [raw succeeded length] in *.
    + destruct (is_write x); cbn [andb negb] in *; [|apply IH; auto; exact (Forall_inv_tail HL)]. apply raw_guard; auto. destruct G as [G|[G _]]; auto.
    + cbn [map concat] in S. destruct (is_write x) eqn:EW.
      * destruct R as (o' & -> & R). pose proof (Forall_inv HL) as L. cbn [snd] in L. destruct (L EW) as [u EU]. rewrite EU in *. destruct G as [->|[_ G]]; [exists o'; now split|].
        destruct (u ++ [0xA]) as [|c v] eqn:EC; [destruct u; discriminate|]. cbn [app] in *. specialize (G c _ eq_refl). specialize (S c _ eq_refl). congruence.
      * rewrite (nonwrite_text x EW) in S. apply IH; auto. exact (Forall_inv_tail HL).
Qed.
Lemma suffix_fixed : forall f l, nfc_ss (f ++ 0xA :: l) -> Forall allowed (f ++ 0xA :: l) -> preceded (f ++ 0xA :: l) -> pipeline l = l.
Proof.
  intros f l N A P. apply nfc_ss_app in N. destruct N as [_ N]. change (0xA :: l) with ([0xA] ++ l) in N. apply nfc_ss_app in N. destruct N as [_ N]. apply Forall_app in A. destruct A as [_ A].
  apply pipeline_fix; [apply Forall_allowed_clean; exact (Forall_inv_tail A)|exact N|]. apply prec_ok_spec. intros a c b -> U. destruct (P (f ++ 0xA :: a) c b) as [a' E]; [now rewrite <- app_assoc|exact U|].
  destruct a as [|y a] using rev_ind; [apply app_inj_tail in E; destruct E as [_ E]; discriminate|]. change (f ++ 0xA :: a ++ [y]) with (f ++ (0xA :: a) ++ [y]) in E. rewrite app_assoc in E. apply app_inj_tail in E. destruct E as [_ ->]. now exists a.
Qed.
Lemma fixed_text : forall t, nfc_ss t -> Forall allowed t -> preceded t -> pipeline t = t.
Proof. intros t N A P. apply pipeline_fix; [now apply Forall_allowed_clean|exact N|now apply prec_ok_spec]. Qed.
Lemma pipeline_nil : pipeline [] = [].
Proof. vm_compute. reflexivity. Qed.
Lemma pipeline_lines : forall l o, line_terminated l -> pipeline l = l -> pipeline (l ++ o) = l ++ pipeline o.
Proof.
  intros l o [->|[u ->]] E; [reflexivity|]. change [0xA] with [LF] in *. rewrite pipeline_LF, pipeline_nil in E. apply app_inj_tail in E. destruct E as [E _]. rewrite <- !app_assoc. cbn [app]. now rewrite pipeline_LF, E.
Qed.
Theorem raw_reads : forall h rs good o, raw good h rs o -> plain_history h -> Forall (fun x => line_op (snd x)) h -> Forall (fun x => preceded (op_text (snd x))) h -> good_calls h rs -> reads_lines good h rs (pipeline o).
Proof.
  induction h as [|[k x] h IH]; intros rs good o R HP HL HA GC.
  - cbn [raw reads_lines] in *. destruct R as [T E]. split; [now apply FuzzProps.pipeline_line|]. intro G. rewrite (E G). exact pipeline_nil.
  - specialize (IH) with (2 := Forall_inv_tail HP) (3 := Forall_inv_tail HL) (4 := Forall_inv_tail HA). destruct rs as [|[e|] rs]; cbn [raw reads_lines] in *.
    + destruct R as [T E]. split; [now apply FuzzProps.pipeline_line|]. intro G. rewrite (E G). exact pipeline_nil.
    + now apply IH.
    + unfold good_calls in GC. cbn [succeeded] in GC. specialize (fun g o R => IH rs g o R (Forall_inv_tail GC)). destruct (is_write x) eqn:EW; [|now apply IH].
      pose proof (Forall_inv HP) as P. pose proof (Forall_inv HL) as L. pose proof (Forall_inv HA) as PR. pose proof (Forall_inv GC) as AL. cbn [snd] in P, L, PR. cbn beta in AL. destruct (L EW) as [u EU]. pose proof (op_text_nfc_ss x P) as NF.
      destruct good; [destruct R as (o' & -> & R)|destruct R as (d & o' & -> & R)].
      * exists (pipeline o'). split; [|now apply IH]. apply pipeline_lines; [right; now exists u|now apply fixed_text].
      * exists (pipeline d ++ [0xA]), (pipeline o'). split; [right; now exists (pipeline d)|]. split; [intro K; destruct (pipeline d); discriminate|]. split; [|now apply IH].
        change (d ++ 0xA :: ?z) with (d ++ LF :: z). rewrite pipeline_LF, <- app_assoc. f_equal. cbn [app]. f_equal. destruct (first_line u) as [f EF]. rewrite <- EU in EF. apply pipeline_lines; [rewrite EU; apply after_lines|].
        apply (suffix_fixed f); rewrite <- EF; auto.
Qed.
Lemma made_shape : forall rr, exists g e, made rr = g ++ concat rr ++ e /\ (g = [] \/ concat rr <> [] /\ (forall c u, concat rr = c :: u -> is_basic_text_start c = false)) /\ tail_ok rr e.
Proof.
  intro rr. unfold made.
  assert (G : exists g, guard_start (concat rr) = g ++ concat rr /\ (g = [] \/ concat rr <> [] /\ (forall c u, concat rr = c :: u -> is_basic_text_start c = false))).
  { unfold guard_start. destruct (concat rr) as [|c t]; [exists []; auto|]. destruct (is_basic_text_start c) eqn:EB; [exists []; auto|]. exists [0x34F]. split; [reflexivity|]. right. split; [discriminate|]. intros c' u E. injection E as <- _. exact EB. }
  destruct G as (g & EG & PG). rewrite EG.
  assert (H : exists z, guard_end (g ++ concat rr) = (g ++ concat rr) ++ z /\ (last_opt rr = Some [0xA] \/ rr = [] -> z = [])).
  { unfold guard_end. destruct (last_opt (g ++ concat rr)) as [c|] eqn:EL; [|exists []; rewrite app_nil_r; auto]. destruct (is_basic_text_end c) eqn:EE; [exists []; rewrite app_nil_r; auto|]. exists [0x34F]. split; [reflexivity|]. intros [K| ->]; exfalso.
    - destruct (last_line rr K) as [v EV]. rewrite EV, app_assoc, last_opt_snoc in EL. injection EL as <-. vm_compute in EE. discriminate.
    - destruct PG as [->|[K _]]; [discriminate|]. now apply K. }
  destruct H as (z & -> & PZ). exists g, (z ++ final_newline rr). rewrite <- !app_assoc. split; [reflexivity|]. split; [exact PG|]. split.
  - unfold final_newline. destruct rr as [|r rr] using rev_ind; [cbn; rewrite PZ by auto; now left|]. rewrite last_opt_snoc in *. destruct (list_eqb r [0xA]) eqn:EQ.
    + apply list_eqb_eq in EQ. subst r. rewrite PZ by auto. rewrite !app_nil_r, concat_app. cbn. right. now exists (concat rr).
    + right. exists (concat (rr ++ [r]) ++ z). now rewrite <- app_assoc.
  - intro K. rewrite (PZ K). unfold final_newline. destruct K as [->| ->]; reflexivity.
Qed.
Section Read.
Variables (crs : nat -> bool) (bom nel lsps : bool) (a : list wout) (h : list (nat * wop)) (rs : list wresult) (s : shared).
Hypothesis RUN : shared_ops (new_shared crs (if bom then [0xFEFF] else []) a) h = (rs, s).
Hypothesis HP : plain_history h.
Hypothesis HL : Forall (fun x => line_op (snd x)) h.
Lemma cut_replaced : exists rr, replaced true (char_rep nel lsps) (without_bom (accepted s)) rr /\ exists g e, made rr = g ++ concat rr ++ e /\ raw true h rs (g ++ concat rr ++ e) /\ good_calls h rs.
Proof.
  destruct (history_pieces h crs _ _ rs s (agrees_new crs _ a) HP RUN) as (ps & W & AC & FS & GC). cbn [accepted new_shared] in AC.
  destruct (pieces_raw crs nel lsps h rs ps W HL GC true [] (fun _ => eq_refl) FS) as (rr & R & K). cbn [app] in R. exists rr. split.
  - assert (E : without_bom (accepted s) = concat ps); [|now rewrite E]. rewrite AC. destruct bom; [reflexivity|]. apply without_bom_none. cbn [app]. intros t E. rewrite E in FS. now destruct (sendable_special _ (Forall_inv FS)).
  - destruct (made_shape rr) as (g & e & E & PG & T). exists g, e. split; [exact E|]. split; [|exact GC]. pose proof (K e T) as RW. destruct (history_agrees h crs _ _ rs s (agrees_new crs _ a) HP RUN) as (_ & _ & LR).
    destruct (history_valid h crs _ _ rs s (agrees_new crs _ a) HP HL RUN) as (_ & _ & S). specialize (S (fun _ => or_intror eq_refl)). apply raw_start; auto; [exact (proj1 T)|].
    destruct PG as [PG|[PG1 PG2]]; [now left|]. right. destruct (concat rr) as [|c t]; [congruence|]. split; [discriminate|]. intros c' u EC. injection EC as <- _. exact (PG2 c t eq_refl).
Qed.
Theorem shared_cut_at_once : forall o, Forall (fun x => preceded (op_text (snd x))) h -> gives nel lsps [Chunk (accepted s) End] o -> reads_lines true h rs o.
Proof.
  intros o PR G. destruct cut_replaced as (rr & R & g & e & E & RW & GC). rewrite (gives_once_made _ _ _ _ _ G R), E. now apply raw_reads.
Qed.
Theorem shared_cut_read : forall sc o, Forall (fun x => Forall (fun c => is_assigned c = true) (op_text (snd x))) h -> stream_text sc = accepted s -> regular sc -> gives nel lsps sc o -> reads_lines true h rs o.
Proof.
  intros sc o A ES RG G. destruct cut_replaced as (rr & R & g & e & E & RW & GC). pose proof R as R'. rewrite <- ES in R'. rewrite (gives_made _ _ _ _ _ G RG R'), E.
  - apply raw_reads; auto. eapply Forall_impl; [|exact A]. intros x AX. now apply assigned_preceded.
  - apply (unguarded_assigned _ _ _ _ R). destruct (history_pieces h crs _ _ rs s (agrees_new crs _ a) HP RUN) as (ps & W & AC & _ & _).
    assert (F : Forall (fun c => is_assigned c = true) (concat ps)).
    { clear - W A. induction W as [|k o h rs ps W IH|k o e h rs p ps B W IH]; [constructor| |]; cbn [concat]; apply Forall_app; split; try (apply IH; exact (Forall_inv_tail A)); pose proof (sent_assigned false (crs k) _ (Forall_inv A)) as K; cbn [snd] in K; unfold stored in K; cbn [app] in K; [exact K|].
      destruct B as [z B]. rewrite B in K. now apply Forall_app in K. }
    rewrite AC. cbn [accepted new_shared]. destruct bom; [exact F|]. cbn [app]. destruct (concat ps) as [|c t]; [constructor|]. cbn [without_bom]. destruct (c =? 0xFEFF); [exact (Forall_inv_tail F)|exact F].
Qed.
End Read.
