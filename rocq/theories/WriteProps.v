(** Consequences of the refinement for histories of a writer without colours. *)
From Coq Require Import NArith Arith List Bool Lia ZifyBool ZifyNat ZifyN.
From Verif Require Import Base Ucd UcdTables Norm Chars TextTables TextUtils UcdFacts NormFacts CharFacts DocTable SpecText TextFacts PipelineFacts
  IsoFacts KeepFacts Utf8 Utf8Facts Output SpecWrite WriteFacts.
Import ListNotations.
Local Open Scope N_scope.
Arguments N.add : simpl never.
Arguments N.leb : simpl never.
Arguments N.ltb : simpl never.
Arguments N.eqb : simpl never.
Local Opaque pipeline.

Lemma as_sent_app : forall cr a b, as_sent cr (a ++ b) = as_sent cr a ++ as_sent cr b.
Proof. intros [|] a b; [apply expand_app|reflexivity]. Qed.
Lemma allowed_pipeline : forall s, forallb allowedb s = true -> Forall allowed (pipeline s).
Proof. intros s H. apply Forall_allowed_clean, pipeline_all_clean, all_allowed, H. Qed.
Lemma substr_allowed : forall s, is_basic_text_substr s = true -> Forall allowed s.
Proof. intros s H. apply substr_spec in H. exact (proj2 (proj2 H)). Qed.

(** ** What reaches the stream below *)
Definition sound (cr : bool) (p : list N) (d : doc) : Prop :=
  exists t rest, Forall allowed t /\ p ++ as_sent cr t = sent d ++ rest /\ (failed d = false -> rest = [] /\ t = text d).
Lemma fail_sound : forall cr p d, sound cr p d -> sound cr p (fail d).
Proof. intros cr p d (t & rest & A & E & _). exists t, rest. split; [exact A|]. split; [exact E|]. discriminate. Qed.
Lemma send_sound : forall cr p d t, sound cr p d -> failed d = false -> Forall allowed t -> sound cr p (snd (spec_send cr d t)).
Proof.
  intros cr p d t HS EF HA. unfold spec_send. destruct (_ && _); [now apply fail_sound|].
  destruct HS as (t0 & rest & A & E & K). destruct (K EF) as [-> ->]. rewrite app_nil_r in E.
  destruct (outcomes d) as [|[|n] o]; cbn [snd].
  - exists (text d ++ t), []. split; [now apply Forall_app|]. cbn. rewrite as_sent_app, app_assoc, E, app_nil_r. auto.
  - exists (text d ++ t), []. split; [now apply Forall_app|]. cbn. rewrite as_sent_app, app_assoc, E, app_nil_r. auto.
  - exists (text d ++ t), (skipn n (as_sent cr t)). split; [now apply Forall_app|]. cbn. rewrite as_sent_app, app_assoc, E, <- app_assoc, firstn_skipn.
    split; [reflexivity|discriminate].
Qed.
Lemma call_sound : forall cr p d, sound cr p d -> sound cr p (snd (spec_call d)).
Proof. intros cr p d (t & rest & A & E & K). unfold spec_call. exists t, rest. destruct (outcomes d) as [|[|n] o]; cbn; auto. Qed.
Lemma write_sound : forall cr p d s, sound cr p d -> sound cr p (snd (spec_write cr d s)).
Proof.
  intros cr p d s H. unfold spec_write. destruct (failed d) eqn:EF; [exact H|]. destruct (forallb allowedb s) eqn:EA; cbn [negb]; [|now apply fail_sound].
  apply send_sound; auto. now apply allowed_pipeline.
Qed.
Lemma op_sound : forall cr p d o, sound cr p d -> plain_op o -> sound cr p (snd (spec_op cr d o)).
Proof.
  intros cr p d o H HP. destruct o as [s|s|bs| | |]; cbn [spec_op].
  - now apply write_sound.
  - unfold spec_write_text. destruct (failed d) eqn:EF; [exact H|]. apply send_sound; auto. apply substr_allowed. exact (proj2 HP).
  - destruct (decode bs) as [[|c cs] [|b rest]]; try (now apply write_sound). now apply fail_sound.
  - unfold spec_flush. destruct (failed d); [exact H|]. destruct (opt_all _ _); [now apply call_sound|now apply fail_sound].
  - unfold spec_close. destruct (failed d); [exact H|]. destruct (last_opt (text d)) as [c|]; [destruct (c =? 10)|]; try (now apply call_sound); now apply fail_sound.
  - now apply fail_sound.
Qed.
Lemma ops_sound : forall os cr p d, sound cr p d -> Forall plain_op os -> sound cr p (snd (spec_ops cr d os)).
Proof.
  induction os as [|o os IH]; intros cr p d H HP; [exact H|]. inversion HP; subst. cbn [spec_ops].
  pose proof (op_sound cr p d o H ltac:(assumption)) as K. destruct (spec_op cr d o) as [b d']. cbn [snd] in K.
  specialize (IH cr p d' K ltac:(assumption)). destruct (spec_ops cr d' os). exact IH.
Qed.
Lemma new_sound : forall cr p o, sound cr p (new_doc p o).
Proof. intros cr p o. exists [], []. destruct cr; cbn; auto. Qed.

(** Everything sent, in any history, with any failures, is the beginning of an
    allowed text (with line ends expanded in CRLF mode). *)
Theorem writer_sends_allowed : forall cr p o ops rs w, do_ops (new_writer cr false (mksink p o false)) ops = (rs, w) -> Forall plain_op ops ->
  exists t rest, Forall allowed t /\ p ++ as_sent cr t = emitted (inner w) ++ rest.
Proof.
  intros cr p o ops rs w H HP. destruct (ops_refine ops cr _ _ (new_refines cr p o) HP) as [_ R]. rewrite H in R. cbn [snd] in R.
  destruct (ops_sound ops cr p _ (new_sound cr p o) HP) as (t & rest & A & E & _). exists t, rest. split; [exact A|].
  destruct R as (_ & _ & _ & -> & _). exact E.
Qed.

(** ** Nothing is lost *)
Lemma op_text_added : forall cr d o b d', spec_op cr d o = (b, d') -> failed d' = false ->
  failed d = false /\ text d' = text d ++ op_text o /\ (is_write o = true -> b = true).
Proof.
  assert (SD : forall cr d t b d', spec_send cr d t = (b, d') -> failed d' = false -> text d' = text d ++ t /\ b = true).
  { intros cr d t b d' H F. unfold spec_send in H. destruct (_ && _); [injection H as <- <-; discriminate|].
    destruct (outcomes d) as [|[|n] o]; injection H as <- <-; try discriminate; auto. }
  assert (SC : forall d b d', spec_call d = (b, d') -> text d' = text d /\ failed d' = failed d).
  { intros d b d' H. unfold spec_call in H. destruct (outcomes d) as [|[|n] o]; injection H as <- <-; auto. }
  assert (SW : forall cr d s b d', spec_write cr d s = (b, d') -> failed d' = false -> failed d = false /\ text d' = text d ++ pipeline s /\ b = true).
  { intros cr d s b d' H F. unfold spec_write in H. destruct (failed d) eqn:EF; [injection H as <- <-; congruence|].
    destruct (forallb allowedb s); cbn [negb] in H; [|injection H as <- <-; discriminate]. destruct (SD _ _ _ _ _ H F). auto. }
  intros cr d o b d' H F. destruct o as [s|s|bs| | |]; cbn [spec_op op_text is_write] in *.
  - destruct (SW _ _ _ _ _ H F) as (A & B & C). auto.
  - unfold spec_write_text in H. destruct (failed d) eqn:EF; [injection H as <- <-; congruence|]. destruct (SD _ _ _ _ _ H F). auto.
  - destruct (decode bs) as [[|c cs] [|x rest]]; cbn [fst]; try (destruct (SW _ _ _ _ _ H F) as (A & B & C); now auto). injection H as <- <-. discriminate.
  - unfold spec_flush in H. destruct (failed d) eqn:EF; [injection H as <- <-; congruence|].
    destruct (opt_all _ _); [destruct (SC _ _ _ H) as [-> _]; now rewrite app_nil_r|injection H as <- <-; discriminate].
  - unfold spec_close in H. destruct (failed d) eqn:EF; [injection H as <- <-; congruence|].
    destruct (last_opt (text d)) as [c|]; [destruct (c =? 10)|]; try (destruct (SC _ _ _ H) as [-> _]; now rewrite app_nil_r); injection H as <- <-; discriminate.
  - injection H as <- <-. discriminate.
Qed.
Lemma ops_text_added : forall os cr d bs d', spec_ops cr d os = (bs, d') -> failed d' = false ->
  failed d = false /\ text d' = text d ++ concat (map op_text os) /\ Forall2 (fun o b => is_write o = true -> b = true) os bs.
Proof.
  induction os as [|o os IH]; intros cr d bs d' H F; cbn [spec_ops] in H.
  - injection H as <- <-. rewrite app_nil_r. auto.
  - destruct (spec_op cr d o) as [b d1] eqn:E1. destruct (spec_ops cr d1 os) as [bs1 d2] eqn:E2. injection H as <- <-.
    destruct (IH _ _ _ _ E2 F) as (F1 & T1 & W1). destruct (op_text_added _ _ _ _ _ E1 F1) as (F0 & T0 & W0).
    split; [exact F0|]. split; [|now constructor]. rewrite T1, T0. cbn [map concat]. now rewrite app_assoc.
Qed.

Lemma Forall2_ok : forall (P : wop -> Prop) os rs, Forall2 (fun o b => P o -> b = true) os (map ok rs) -> Forall2 (fun o r => P o -> r = None) os rs.
Proof.
  intros P os rs. revert os. induction rs as [|r rs IH]; intros os H; inversion H as [|? ? ? ? HH HT]; subst; constructor; auto.
  intro K. specialize (HH K). destruct r; [discriminate|reflexivity].
Qed.

(** Closing succeeds only if every write succeeded; then the stream below has
    exactly the texts of the writes, in order, and they end with a line end. *)
Theorem closed_complete : forall cr p o ops rs w w', do_ops (new_writer cr false (mksink p o false)) ops = (rs, w) -> Forall plain_op ops ->
  close w = (None, w') ->
  let t := concat (map op_text ops) in
  emitted (inner w') = p ++ as_sent cr t /\ line_terminated t /\ Forall allowed t /\ Forall2 (fun o r => is_write o = true -> r = None) ops rs.
Proof.
  intros cr p o ops rs w w' H HP HC t. destruct (ops_refine ops cr _ _ (new_refines cr p o) HP) as [RS R]. rewrite H in RS, R. cbn [fst snd] in RS, R.
  destruct (op_refines cr _ w OpClose R I) as [RC R']. cbn [do_op spec_op] in RC, R'. rewrite HC in RC, R'. cbn [fst snd ok] in RC, R'.
  pose proof (ops_sound ops cr p _ (new_sound cr p o) HP) as SD.
  destruct (spec_ops cr (new_doc p o) ops) as [bs d] eqn:ED. cbn [fst snd] in *.
  unfold spec_close in RC, R'. destruct (failed d) eqn:EF; [discriminate|].
  assert (LT : line_terminated (text d)).
  { destruct (last_opt (text d)) as [c|] eqn:EL; [|left; now apply last_opt_none]. destruct (c =? 10) eqn:E10; [|discriminate].
    right. apply last_opt_some in EL. apply N.eqb_eq in E10. subst c. exact EL. }
  assert (SE : sent (snd (spec_call d)) = sent d) by (unfold spec_call; destruct (outcomes d) as [|[|n] oo]; reflexivity).
  assert (EM : emitted (inner w') = sent d).
  { destruct (last_opt (text d)) as [c|]; [destruct (c =? 10); [|discriminate]|]; destruct R' as (_ & _ & _ & -> & _); exact SE. }
  destruct (ops_text_added _ _ _ _ _ ED EF) as (_ & TX & W). cbn in TX. fold t in TX.
  destruct SD as (t0 & rest & A & E & K). destruct (K EF) as [-> ->]. rewrite app_nil_r in E. rewrite TX in *.
  split; [congruence|]. split; [exact LT|]. split; [exact A|]. apply Forall2_ok. now rewrite RS.
Qed.

(** ** CRLF mode *)
Definition paired (W : Prop) (p : list N) (d1 d2 : doc) : Prop :=
  text d1 = text d2 /\ fresh d1 = fresh d2 /\ failed d1 = failed d2 /\ outcomes d1 = outcomes d2 /\
  (W -> whole (outcomes d1) /\ exists u, sent d1 = p ++ u /\ sent d2 = p ++ expand u).
Definition paired_result (W : Prop) (p : list N) (r1 r2 : bool * doc) : Prop := fst r1 = fst r2 /\ paired W p (snd r1) (snd r2).
Lemma fail_paired : forall W p d1 d2, paired W p d1 d2 -> paired W p (fail d1) (fail d2).
Proof. intros W p d1 d2 (A & B & C & D & E). unfold paired. cbn. auto. Qed.
Lemma send_paired : forall W p d1 d2 t, paired W p d1 d2 -> paired_result W p (spec_send false d1 t) (spec_send true d2 t).
Proof.
  intros W p d1 d2 t HP. pose proof HP as (A & B & C & D & E). unfold spec_send, paired_result. rewrite <- B. destruct (_ && _); [cbn; split; [reflexivity|now apply fail_paired]|].
  rewrite <- D. destruct (outcomes d1) as [|[|n] o]; cbn [fst snd]; (split; [reflexivity|]); unfold paired; cbn; rewrite A; (repeat split; auto); try intro w;
    destruct (E ltac:(assumption)) as (HW & u & E1 & E2); try rewrite E1; try rewrite E2; try exact HW; try (now inversion HW).
  - exists (u ++ t). now rewrite expand_app, !app_assoc.
  - exists (u ++ t). now rewrite expand_app, !app_assoc.
  - inversion HW; subst. exists u. cbn. now rewrite !app_nil_r.
Qed.
Lemma write_paired : forall W p d1 d2 s, paired W p d1 d2 -> paired_result W p (spec_write false d1 s) (spec_write true d2 s).
Proof.
  intros W p d1 d2 s HP. pose proof HP as (A & B & C & D & E). unfold spec_write. rewrite <- C. destruct (failed d1); [now split|].
  destruct (negb _); [split; [reflexivity|now apply fail_paired]|]. now apply send_paired.
Qed.
Lemma call_paired : forall W p d1 d2, paired W p d1 d2 -> paired_result W p (spec_call d1) (spec_call d2).
Proof.
  intros W p d1 d2 (A & B & C & D & E). unfold spec_call. rewrite <- D. destruct (outcomes d1) as [|[|n] o]; (split; [reflexivity|]); unfold paired; cbn;
    (repeat split; auto); try intro w; destruct (E ltac:(assumption)) as (HW & u & E1 & E2); try exact HW; try (now inversion HW); eauto.
Qed.
Lemma op_paired : forall W p d1 d2 o, paired W p d1 d2 -> paired_result W p (spec_op false d1 o) (spec_op true d2 o).
Proof.
  intros W p d1 d2 o HP. pose proof HP as (A & B & C & D & E). destruct o as [s|s|bs| | |]; cbn [spec_op].
  - now apply write_paired.
  - unfold spec_write_text. rewrite <- C. destruct (failed d1); [now split|]. now apply send_paired.
  - destruct (decode bs) as [[|c cs] [|b rest]]; try (now apply write_paired). split; [reflexivity|now apply fail_paired].
  - unfold spec_flush. rewrite <- C, <- A. destruct (failed d1); [now split|]. destruct (opt_all _ _); [now apply call_paired|split; [reflexivity|now apply fail_paired]].
  - unfold spec_close. rewrite <- C, <- A. destruct (failed d1); [now split|].
    destruct (last_opt (text d1)) as [c|]; [destruct (c =? 10)|]; try (now apply call_paired); (split; [reflexivity|now apply fail_paired]).
  - split; [reflexivity|now apply fail_paired].
Qed.
Lemma ops_paired : forall os W p d1 d2, paired W p d1 d2 -> fst (spec_ops false d1 os) = fst (spec_ops true d2 os) /\
  paired W p (snd (spec_ops false d1 os)) (snd (spec_ops true d2 os)).
Proof.
  induction os as [|o os IH]; intros W p d1 d2 HP; [now split|]. destruct (op_paired W p d1 d2 o HP) as [E HP']. cbn [spec_ops].
  destruct (spec_op false d1 o) as [b1 d1']. destruct (spec_op true d2 o) as [b2 d2']. cbn [fst snd] in *. specialize (IH W p d1' d2' HP').
  destruct (spec_ops false d1' os), (spec_ops true d2' os). cbn [fst snd] in *. destruct IH. split; [congruence|assumption].
Qed.
(** The same history on a plain writer and on a CRLF writer: the same calls
    succeed, and what is sent differs only in the line ends. *)
Theorem crlf_same : forall p o ops rs1 w1 rs2 w2,
  do_ops (new_writer false false (mksink p o false)) ops = (rs1, w1) -> do_ops (new_writer true false (mksink p o false)) ops = (rs2, w2) ->
  Forall plain_op ops ->
  map ok rs1 = map ok rs2 /\ wst w1 = wst w2 /\
  (whole o -> exists u, emitted (inner w1) = p ++ u /\ emitted (inner w2) = p ++ expand u).
Proof.
  intros p o ops rs1 w1 rs2 w2 H1 H2 HP.
  destruct (ops_refine ops false _ _ (new_refines false p o) HP) as [S1 R1]. destruct (ops_refine ops true _ _ (new_refines true p o) HP) as [S2 R2].
  destruct (ops_paired ops (whole o) p (new_doc p o) (new_doc p o)) as [E P].
  { unfold paired. cbn. repeat split; auto. exists []. cbn. now rewrite app_nil_r. }
  rewrite H1 in S1, R1. rewrite H2 in S2, R2. cbn [fst snd] in *. split; [congruence|].
  destruct R1 as (_ & _ & _ & -> & _ & _ & K1). destruct R2 as (_ & _ & _ & -> & _ & _ & K2).
  destruct P as (PT & _ & PF & _ & PW). split; [|intro W; exact (proj2 (PW W))].
  rewrite <- PF in K2. destruct (failed (snd (spec_ops false (new_doc p o) ops))); [congruence|].
  destruct K1 as (_ & _ & ->). destruct K2 as (_ & _ & ->). now rewrite PT.
Qed.

(** ** Splitting a write after a line end *)
Lemma pipeline_lf_app : forall a b, pipeline (a ++ LF :: b) = pipeline (a ++ [LF]) ++ pipeline b.
Proof. intros a b. rewrite !pipeline_LF, pipeline_nil. now rewrite <- app_assoc. Qed.
Lemma head_app : forall (a b : list N), a <> [] -> head_opt (a ++ b) = head_opt a.
Proof. intros [|x a] b H; [congruence|reflexivity]. Qed.
Theorem split_write : forall cr p ops rs w s t w1, do_ops (new_writer cr false (mksink p [] false)) ops = (rs, w) -> Forall plain_op ops ->
  write_str w (s ++ [0xA]) = (None, w1) ->
  ok (fst (write_str w (s ++ 0xA :: t))) = ok (fst (write_str w1 t)) /\
  (fst (write_str w1 t) = None -> write_str w (s ++ 0xA :: t) = write_str w1 t).
Proof.
  intros cr p ops rs w s t w1 H HP HW. change 0xA with LF in *.
  destruct (ops_refine ops cr _ _ (new_refines cr p []) HP) as [_ R]. rewrite H in R. cbn [snd] in R.
  assert (HO : outcomes (snd (spec_ops cr (new_doc p []) ops)) = []).
  { assert (G : forall os d, outcomes d = [] -> outcomes (snd (spec_ops cr d os)) = []).
    { assert (GS : forall d t, outcomes d = [] -> outcomes (snd (spec_send cr d t)) = []) by (intros d u E; unfold spec_send; rewrite E; destruct (_ && _); exact E || reflexivity).
      assert (GW : forall d t, outcomes d = [] -> outcomes (snd (spec_write cr d t)) = [])
        by (intros d u E; unfold spec_write; destruct (failed d); [exact E|]; destruct (negb _); [exact E|now apply GS]).
      assert (GC : forall d, outcomes d = [] -> outcomes (snd (spec_call d)) = []) by (intros d E; unfold spec_call; now rewrite E).
      induction os as [|o os IH]; intros d E; [exact E|]. cbn [spec_ops].
      assert (E1 : outcomes (snd (spec_op cr d o)) = []).
      { destruct o as [x|x|bs| | |]; cbn [spec_op]; [now apply GW| | | | |exact E].
        - unfold spec_write_text. destruct (failed d); [exact E|now apply GS].
        - destruct (decode bs) as [[|c cs] [|b rest]]; try (now apply GW). exact E.
        - unfold spec_flush. destruct (failed d); [exact E|]. destruct (opt_all _ _); [now apply GC|exact E].
        - unfold spec_close. destruct (failed d); [exact E|]. destruct (last_opt _) as [c|]; [destruct (c =? 10)|]; try (now apply GC); exact E. }
      destruct (spec_op cr d o) as [b d']. cbn [snd] in E1. specialize (IH d' E1). destruct (spec_ops cr d' os). exact IH. }
    now apply G. }
  set (d := snd (spec_ops cr (new_doc p []) ops)) in *. clearbody d. clear H HP.
  destruct (write_refines cr d w (s ++ [LF]) R) as [O1 R1]. rewrite HW in O1, R1. cbn [fst snd ok] in O1, R1.
  destruct (write_refines cr d w (s ++ LF :: t) R) as [O2 R2].
  unfold spec_write in O1, R1, O2, R2. destruct (failed d) eqn:EF; [discriminate|].
  assert (EA : forallb allowedb (s ++ LF :: t) = forallb allowedb (s ++ [LF]) && forallb allowedb t).
  { rewrite !forallb_app. cbn [forallb]. destruct (forallb allowedb s), (allowedb LF), (forallb allowedb t); reflexivity. }
  rewrite EA in O2, R2. destruct (forallb allowedb (s ++ [LF])) eqn:EA1; [|discriminate]. cbn [negb andb] in O1, R1, O2, R2.
  destruct (write_refines cr _ w1 t R1) as [O3 R3].
  assert (NN : pipeline (s ++ [LF]) <> []) by (apply pipeline_nonnil; destruct s; discriminate).
  unfold spec_send in O1, R1, O2, R2, O3, R3. rewrite HO in *. rewrite pipeline_lf_app in O2, R2. rewrite head_app in O2, R2 by exact NN.
  destruct (fresh d && negb (opt_all is_basic_text_start (head_opt (pipeline (s ++ [LF]))))); [discriminate|]. cbn [fst snd] in *.
  unfold spec_write, spec_send in O3, R3. cbn [failed fresh outcomes text sent andb] in O3, R3.
  destruct (forallb allowedb t) eqn:EA2; cbn [negb] in O2, R2, O3, R3; cbn [fst snd] in *.
  - split; [congruence|]. intro K. rewrite (surjective_pairing (write_str w (s ++ LF :: t))), (surjective_pairing (write_str w1 t)).
    assert (K2 : fst (write_str w (s ++ LF :: t)) = None) by (destruct (fst (write_str w (s ++ LF :: t))); [discriminate|reflexivity]).
    rewrite K, K2. f_equal. rewrite (refines_eq _ _ _ R2 eq_refl), (refines_eq _ _ _ R3 eq_refl). cbn [text sent fresh outcomes]. now rewrite as_sent_app, !app_assoc.
  - split; [congruence|]. intro K. rewrite K in O3. discriminate.
Qed.

(** ** Is the stream Basic Text? *)
Lemma starts_app : forall a b, a <> [] -> starts_ok a -> starts_ok (a ++ b).
Proof. intros [|x a] b H HS c t E; [congruence|]. injection E as <- _. exact (HS x a eq_refl). Qed.
Lemma op_starts : forall cr d o b d', spec_op cr d o = (b, d') -> nonempty_op o -> failed d' = false ->
  (text d = [] -> fresh d = true) -> starts_ok (text d) -> (text d' = [] -> fresh d' = true) /\ starts_ok (text d').
Proof.
  assert (SD : forall cr d t b d', t <> [] -> spec_send cr d t = (b, d') -> failed d' = false -> (text d = [] -> fresh d = true) -> starts_ok (text d) ->
    (text d' = [] -> fresh d' = true) /\ starts_ok (text d')).
  { intros cr d t b d' NE H F FR ST. unfold spec_send in H. destruct (fresh d && _) eqn:ES; [injection H as <- <-; discriminate|].
    assert (G : text d' = text d ++ t) by (destruct (outcomes d) as [|[|n] o]; injection H as <- <-; try discriminate; reflexivity).
    rewrite G. split; [intro K; apply app_eq_nil in K; tauto|]. destruct (text d) as [|x tx] eqn:ET; [|apply starts_app; [discriminate|exact ST]].
    rewrite (FR eq_refl) in ES. cbn in ES. apply negb_false_iff in ES. now apply starts_ok_iff. }
  assert (SC : forall d b d', spec_call d = (b, d') -> text d' = text d /\ fresh d' = true).
  { intros d b d' H. unfold spec_call in H. destruct (outcomes d) as [|[|n] o]; injection H as <- <-; auto. }
  assert (SW : forall cr d s b d', pipeline s <> [] -> spec_write cr d s = (b, d') -> failed d' = false -> (text d = [] -> fresh d = true) -> starts_ok (text d) ->
    (text d' = [] -> fresh d' = true) /\ starts_ok (text d')).
  { intros cr d s b d' NE H F FR ST. unfold spec_write in H. destruct (failed d) eqn:EF; [injection H as <- <-; congruence|].
    destruct (negb _); [injection H as <- <-; discriminate|]. exact (SD _ _ _ _ _ NE H F FR ST). }
  intros cr d o b d' H NE F FR ST. unfold nonempty_op in NE. destruct o as [s|s|bs| | |]; cbn [spec_op op_text is_write] in *.
  - exact (SW _ _ _ _ _ (NE eq_refl) H F FR ST).
  - unfold spec_write_text in H. destruct (failed d) eqn:EF; [injection H as <- <-; congruence|]. exact (SD _ _ _ _ _ (NE eq_refl) H F FR ST).
  - specialize (NE eq_refl). destruct (decode bs) as [[|c cs] [|x rest]]; cbn [fst] in NE; try (exact (SW _ _ _ _ _ NE H F FR ST)). injection H as <- <-. discriminate.
  - unfold spec_flush in H. destruct (failed d) eqn:EF; [injection H as <- <-; congruence|].
    destruct (opt_all _ _); [destruct (SC _ _ _ H) as [-> ->]; auto|injection H as <- <-; discriminate].
  - unfold spec_close in H. destruct (failed d) eqn:EF; [injection H as <- <-; congruence|].
    destruct (last_opt (text d)) as [c|]; [destruct (c =? 10)|]; try (destruct (SC _ _ _ H) as [-> ->]; now auto); injection H as <- <-; discriminate.
  - injection H as <- <-. discriminate.
Qed.
Lemma ops_starts : forall os cr d bs d', spec_ops cr d os = (bs, d') -> Forall nonempty_op os -> failed d' = false ->
  (text d = [] -> fresh d = true) -> starts_ok (text d) -> starts_ok (text d').
Proof.
  induction os as [|o os IH]; intros cr d bs d' H NE F FR ST; cbn [spec_ops] in H.
  - injection H as <- <-. exact ST.
  - inversion NE; subst. destruct (spec_op cr d o) as [b d1] eqn:E1. destruct (spec_ops cr d1 os) as [bs1 d2] eqn:E2. injection H as <- <-.
    destruct (ops_text_added _ _ _ _ _ E2 F) as (F1 & _). destruct (op_starts _ _ _ _ _ E1 ltac:(assumption) F1 FR ST) as [FR1 ST1].
    exact (IH _ _ _ _ E2 ltac:(assumption) F FR1 ST1).
Qed.
Theorem closed_starts : forall cr p o ops rs w w', do_ops (new_writer cr false (mksink p o false)) ops = (rs, w) -> Forall plain_op ops ->
  Forall nonempty_op ops -> close w = (None, w') -> starts_ok (concat (map op_text ops)).
Proof.
  intros cr p o ops rs w w' H HP NE HC. destruct (ops_refine ops cr _ _ (new_refines cr p o) HP) as [RS R]. rewrite H in R. cbn [snd] in R.
  destruct (op_refines cr _ w OpClose R I) as [RC _]. cbn [do_op spec_op] in RC. rewrite HC in RC. cbn [fst ok] in RC.
  destruct (spec_ops cr (new_doc p o) ops) as [bs d] eqn:ED. cbn [snd] in RC. unfold spec_close in RC. destruct (failed d) eqn:EF; [discriminate|].
  destruct (ops_text_added _ _ _ _ _ ED EF) as (_ & TX & _). cbn in TX. rewrite <- TX.
  apply (ops_starts _ _ _ _ _ ED NE EF); [reflexivity|intros c t E; discriminate E].
Qed.
(** The text of a closed stream is Basic Text exactly if it is in Stream-Safe NFC. *)
Theorem closed_basic_text : forall cr p o ops rs w w', do_ops (new_writer cr false (mksink p o false)) ops = (rs, w) -> Forall plain_op ops ->
  Forall nonempty_op ops -> close w = (None, w') ->
  let t := concat (map op_text ops) in
  emitted (inner w') = p ++ as_sent cr t /\ (string_ok t <-> nfc_text t /\ stream_safe_text t).
Proof.
  intros cr p o ops rs w w' H HP NE HC t. destruct (closed_complete _ _ _ _ _ _ _ H HP HC) as (E & L & A & _).
  pose proof (closed_starts _ _ _ _ _ _ _ H HP NE HC) as S. split; [exact E|]. fold t in L, A, S. unfold string_ok, substring_ok.
  assert (EN : ends_ok t). { intros u c EU. destruct L as [->|[v ->]]; [destruct u; discriminate|]. apply app_inj_tail in EU. destruct EU as [_ <-]. exact end_LF. }
  tauto.
Qed.
(** If every write ends with a line end, it is. *)
Lemma op_text_nfc_ss : forall o, plain_op o -> nfc_ss (op_text o).
Proof.
  intros [s|s|bs| | |] H; cbn [op_text]; try apply pipeline_nfc_ss; try exact nfc_ss_nil. apply substr_ok_iff. exact (proj2 H).
Qed.
Lemma lines_nfc_ss : forall ops, Forall plain_op ops -> Forall line_op ops -> nfc_ss (concat (map op_text ops)).
Proof.
  induction ops as [|o ops IH]; intros HP HL; [exact nfc_ss_nil|]. inversion HP as [|? ? P1 P2]; inversion HL as [|? ? L1 L2]; subst. cbn [map concat].
  specialize (IH P2 L2). pose proof (op_text_nfc_ss o P1) as K. unfold line_op in L1. destruct (is_write o) eqn:EW.
  - destruct (L1 eq_refl) as [u EU]. rewrite EU in *. apply nfc_ss_join; auto. exact boring_LF.
  - replace (op_text o) with (@nil N) by (destruct o; (discriminate || reflexivity)). exact IH.
Qed.
Theorem closed_lines_basic_text : forall cr p o ops rs w w', do_ops (new_writer cr false (mksink p o false)) ops = (rs, w) -> Forall plain_op ops ->
  Forall line_op ops -> close w = (None, w') ->
  let t := concat (map op_text ops) in emitted (inner w') = p ++ as_sent cr t /\ is_basic_text t = true.
Proof.
  intros cr p o ops rs w w' H HP HL HC t. destruct (closed_basic_text cr p o ops rs w w' H HP) as [E B]; [|exact HC|].
  - eapply Forall_impl; [|exact HL]. intros x L1 L2 L3. destruct (L1 L2) as [u EU]. rewrite L3 in EU. destruct u; discriminate.
  - split; [exact E|]. apply basic_text_spec, B. destruct (lines_nfc_ss ops HP HL) as [N1 N2]. split; [exact N1|now apply stream_safe_spec].
Qed.

(** ** Text writes and string writes *)
Theorem text_write_is_str_write : forall w s g, ansi w = false -> wst w = WGround g -> s <> [] -> is_basic_text_substr s = true -> preceded s ->
  write_text w s = write_str w s.
Proof.
  intros w s g HA HW HN HS HP. apply substr_ok_iff in HS. destruct HS as [C NS]. rewrite write_text_eq by exact HN.
  rewrite (write_str_ok _ _ g) by assumption. rewrite pipeline_fix; auto. now apply prec_ok_spec.
Qed.

(** ** Writing bytes *)
Theorem write_bytes_spec : forall w bs c r w', write_bytes w bs = (c, r, w') ->
  (forall n, c = Some n -> r = None /\ (n <= length bs)%nat /\ (n = 0%nat -> bs = []) /\
     exists s, scalars s /\ firstn n bs = encode_all s /\ decode1 (skipn n bs) = None /\ write_str w s = (None, w')) /\
  (c = None -> r <> None).
Proof.
  intros w bs c r w' H. unfold write_bytes in H. destruct (decode bs) as [cs rest] eqn:ED. destruct (decode_spec _ _ _ ED) as (SC & EB & DN).
  assert (L : length bs = (length (encode_all cs) + length rest)%nat) by (rewrite EB, app_length; reflexivity).
  assert (G : forall n, n = length (encode_all cs) -> firstn n bs = encode_all cs /\ skipn n bs = rest).
  { intros n ->. rewrite EB. split; [now rewrite firstn_app, Nat.sub_diag, firstn_all, firstn_O, app_nil_r|now rewrite skipn_app, Nat.sub_diag, skipn_all]. }
  destruct rest as [|b rest].
  - destruct (write_str w cs) as [r0 w0] eqn:EW. assert (H' : (match r0 with None => Some (length bs) | Some _ => None end, r0, w0) = (c, r, w')) by (destruct cs; exact H).
    clear H. injection H' as <- <- <-. split.
    + intros n E. destruct r0; [discriminate|]. injection E as <-. cbn [length] in L. rewrite Nat.add_0_r in L. destruct (G _ L) as [G1 G2].
      split; [reflexivity|]. split; [lia|]. split; [intro K; now apply length_zero_iff_nil|]. exists cs. rewrite G1, G2. auto.
    + destruct r0; [discriminate|]. discriminate.
  - destruct cs as [|x cs].
    + injection H as <- <- <-. split; [discriminate|discriminate].
    + destruct (write_str w (x :: cs)) as [r0 w0] eqn:EW. injection H as <- <- <-. split.
      * intros n E. destruct r0; [discriminate|]. injection E as E. assert (LN : n = length (encode_all (x :: cs))) by (cbn [length] in L; lia).
        destruct (G _ LN) as [G1 G2]. split; [reflexivity|]. split; [lia|]. split; [|exists (x :: cs); rewrite G1, G2; auto].
        intro K. exfalso. rewrite K in LN. rewrite encode_all_length in LN. cbn [str_len] in LN. pose proof (utf8_len_pos x). lia.
      * destruct r0; discriminate.
Qed.

(** ** Line ends in CRLF mode *)
Lemma expand_lf : forall t a b, Forall allowed t -> expand t = a ++ 0xA :: b -> exists a', a = a' ++ [0xD].
Proof.
  induction t as [|c t IH]; intros a b HA H; [destruct a; discriminate|]. inversion HA; subst. unfold expand in H. cbn [flat_map] in H. fold (expand t) in H.
  destruct (c =? 10) eqn:E; cbn [app] in H.
  - destruct a as [|x [|y a]]; [discriminate| |].
    + injection H as <- _. now exists [].
    + injection H as <- <- H. destruct (IH a b ltac:(assumption) H) as [a' ->]. now exists (0xD :: 0xA :: a').
  - destruct a as [|x a]; [injection H as -> _; discriminate|]. injection H as <- H. destruct (IH a b ltac:(assumption) H) as [a' ->]. now exists (c :: a').
Qed.
Theorem crlf_line_ends : forall o ops rs w a b, do_ops (new_writer true false (mksink [] o false)) ops = (rs, w) -> Forall plain_op ops ->
  emitted (inner w) = a ++ 0xA :: b -> exists a', a = a' ++ [0xD].
Proof.
  intros o ops rs w a b H HP E. destruct (writer_sends_allowed _ _ _ _ _ _ H HP) as (t & rest & A & EQ). cbn [app as_sent] in EQ. rewrite E, <- app_assoc in EQ.
  exact (expand_lf t a (b ++ rest) A EQ).
Qed.
Theorem no_escape : forall cr o ops rs w, do_ops (new_writer cr false (mksink [] o false)) ops = (rs, w) -> Forall plain_op ops -> ~ In 0x1B (emitted (inner w)).
Proof.
  intros cr o ops rs w H HP HI. destruct (writer_sends_allowed _ _ _ _ _ _ H HP) as (t & rest & A & EQ). cbn [app] in EQ.
  assert (K : In 0x1B (as_sent cr t)) by (rewrite EQ; apply in_or_app; now left).
  assert (G : In 0x1B t).
  { destruct cr; [|exact K]. cbn [as_sent] in K. unfold expand in K. apply in_flat_map in K. destruct K as (c & HC & K).
    destruct (c =? 10); cbn in K; [destruct K as [K|[K|[]]]; discriminate K|]. destruct K as [->|[]]. exact HC. }
  rewrite Forall_forall in A. specialize (A _ G). discriminate A.
Qed.
