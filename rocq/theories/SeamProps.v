(** Where two writes meet (C34). *)
From Coq Require Import NArith Arith List Bool Lia ZifyBool ZifyNat ZifyN.
From Verif Require Import Base Ucd UcdTables Norm Chars TextTables TextUtils UcdFacts NormFacts CharFacts SpecText TextFacts PipelineFacts IsoFacts ConcatFacts
  Strings StringProps SpecString JoinProps Utf8 Utf8Facts Input Output SpecWrite WriteFacts WriteProps Duplex SpecDuplex DuplexProps.
Import ListNotations.
Local Open Scope N_scope.
Arguments N.add : simpl never.
Arguments N.leb : simpl never.
Arguments N.ltb : simpl never.
Arguments N.eqb : simpl never.
Local Opaque pipeline.

Lemma joined_head : forall a b c, b <> [] -> joined a (b ++ c) <-> joined a b.
Proof.
  intros a b c N. destruct b as [|x b]; [congruence|]. split; intros (t & y & z & u & E1 & E2 & J); cbn in E2; injection E2 as <- <-.
  - exists t, y, x, b. auto.
  - exists t, y, x, (b ++ c). auto.
Qed.
Lemma chain_nfc_ss : forall ts, Forall (fun b => b <> [] /\ starts_ok b) (tl ts) -> Forall nfc_ss ts ->
  nfc_ss (concat ts) <-> forall l a b r, ts = l ++ a :: b :: r -> ~ joined a b.
Proof.
  induction ts as [|a ts IH]; intros S N; [split; [intros _ [|? ?] ? ? ? E; discriminate|intros _; exact nfc_ss_nil]|].
  inversion N as [|? ? N1 N2]; subst. cbn [tl] in S. cbn [concat]. destruct ts as [|b ts].
  { cbn [concat]. rewrite app_nil_r. split; [|auto]. intros _ l x y r E. destruct l as [|? [|? ?]]; discriminate. }
  inversion S as [|? ? [S1 S2] S3]; subst. specialize (IH S3 N2).
  assert (SB : starts_ok (concat (b :: ts))).
  { cbn [concat]. destruct b as [|x b]; [congruence|]. intros c t E. cbn in E. injection E as <- _. exact (S2 x b eq_refl). }
  assert (J : joined a (concat (b :: ts)) <-> joined a b) by (cbn [concat]; now apply joined_head). split.
  - intros K l x y r E. pose proof (nfc_ss_app _ _ K) as [K1 K2]. destruct l as [|z l].
    + cbn in E. injection E as <- <- _. rewrite <- J. apply (seam_joined _ _ SB). now apply nfc_ss_seam_inv.
    + cbn in E. injection E as _ E. exact (proj1 IH K2 l x y r E).
  - intro K. assert (NR : nfc_ss (concat (b :: ts))) by (apply IH; intros l x y r E; apply (K (a :: l) x y r); now rewrite E).
    apply (seam_iff a (concat (b :: ts)) SB N1 NR). apply (seam_joined _ _ SB). rewrite J. exact (K [] a b ts eq_refl).
Qed.
Definition texts (ops : list wop) : list (list N) := map op_text (filter is_write ops).
Lemma texts_concat : forall ops, concat (texts ops) = concat (map op_text ops).
Proof. induction ops as [|o ops IH]; [reflexivity|]. unfold texts in *. cbn [filter map concat]. rewrite <- IH. now destruct o. Qed.
Theorem closed_seams : forall cr p o ops rs w w', do_ops (new_writer cr false (mksink p o false)) ops = (rs, w) -> Forall plain_op ops -> close w = (None, w') ->
  Forall (fun t => t <> [] /\ starts_ok t) (map op_text (filter is_write ops)) ->
  let t := concat (map op_text ops) in emitted (inner w') = p ++ as_sent cr t /\
  (is_basic_text t = true <-> forall l a b r, map op_text (filter is_write ops) = l ++ a :: b :: r -> ~ joined a b).
Proof.
  intros cr p o ops rs w w' H HP HC HS t. destruct (closed_basic_text cr p o ops rs w w' H HP) as [E B]; [|exact HC|].
  { clear - HS. induction ops as [|x ops IH]; [constructor|]. cbn [filter] in HS. constructor.
    - intro K. rewrite K in HS. cbn [map] in HS. inversion HS as [|? ? [K2 _] _]. exact K2.
    - apply IH. destruct (is_write x); [cbn [map] in HS; now inversion HS|exact HS]. }
  split; [exact E|]. rewrite basic_text_spec. fold t in B. rewrite B. fold (texts ops). unfold t. rewrite <- texts_concat.
  rewrite <- (chain_nfc_ss (texts ops)).
  - unfold nfc_ss. rewrite stream_safe_spec. reflexivity.
  - fold (texts ops) in HS. destruct HS; [constructor|assumption].
  - clear - HP. unfold texts. apply Forall_map. apply Forall_forall. intros x K. apply filter_In in K as [K _]. rewrite Forall_forall in HP. now apply op_text_nfc_ss, HP.
Qed.

(** * The duplexer (C52) *)
Lemma op_allowed : forall cr d o b d', spec_op cr d o = (b, d') -> failed d' = false -> plain_op o -> Forall allowed (op_text o).
Proof.
  assert (SW : forall cr d s b d', spec_write cr d s = (b, d') -> failed d' = false -> Forall allowed (pipeline s)).
  { intros cr d s b d' H F. unfold spec_write in H. destruct (failed d) eqn:EF; [injection H as <- <-; congruence|].
    destruct (forallb allowedb s) eqn:EA; cbn [negb] in H; [now apply allowed_pipeline|injection H as <- <-; discriminate]. }
  intros cr d o b d' H F P. destruct o as [s|s|bs| | |]; cbn [spec_op op_text] in *; try constructor.
  - exact (SW _ _ _ _ _ H F).
  - exact (substr_allowed s (proj2 P)).
  - destruct (decode bs) as [[|c cs] [|y r]]; cbn [fst]; try exact (SW _ _ _ _ _ H F). injection H as <- <-. discriminate.
Qed.
Lemma sides_allowed : forall os rs cr d, spec_results cr d os rs -> failed (spec_sides cr d os rs) = false -> Forall plain_dop os -> Forall allowed (written os).
Proof.
  induction os as [|o os IH]; intros [|r rs] cr d H F P; try destruct H; [constructor|]. inversion P as [|? ? P1 P2]; subst. cbn [spec_sides] in F.
  unfold written. cbn [map concat]. apply Forall_app. split; [|exact (IH _ _ _ H0 F P2)]. destruct (sides_written _ _ _ _ H0 F) as (F1 & _ & _).
  destruct o as [b|o]; [constructor|]. cbn [dop_text spec_side] in *. destruct (spec_op cr d o) as [e d'] eqn:E. exact (op_allowed _ _ _ _ _ E F1 (proj1 P1)).
Qed.
Lemma concat_starts : forall ts, Forall (fun t => t <> [] /\ starts_ok t) ts -> starts_ok (concat ts).
Proof.
  intros [|t ts] H; [intros c u E; discriminate|]. inversion H as [|? ? [H1 H2] _]; subst. destruct t as [|x t]; [congruence|]. intros c u E. cbn in E. injection E as <- _. exact (H2 x t eq_refl).
Qed.
Theorem duplex_closed_exact : forall nel lsps cr p o sc os rs x w', do_dops (new_duplexer nel lsps cr false (mksink p o false) sc) os = (rs, x) -> Forall plain_dop os ->
  close (dout x) = (None, w') -> Forall (fun t => t <> [] /\ starts_ok t) (texts (outs os)) ->
  emitted (inner w') = p ++ as_sent cr (written os) /\
  (string_ok (written os) <-> ends_ok (written os) /\ forall l a b r, texts (outs os) = l ++ a :: b :: r -> ~ joined a b).
Proof.
  intros nel lsps cr p o sc os rs x w' H F HC HS. destruct (duplex_refines _ _ _ _ _ _ _ _ _ H F) as [S R]. destruct (close_spec _ _ _ _ R HC) as (EF & _ & EM).
  destruct (sides_written _ _ _ _ S EF) as (_ & _ & SE). rewrite SE in EM. split; [exact EM|].
  pose proof (sides_allowed _ _ _ _ S EF F) as A.
  assert (W : concat (texts (outs os)) = written os) by (rewrite texts_concat; apply outs_text).
  assert (SO : starts_ok (written os)) by (rewrite <- W; now apply concat_starts).
  assert (NF : Forall nfc_ss (texts (outs os))).
  { clear - F. unfold texts. apply Forall_map, Forall_forall. intros y K. apply filter_In in K as [K _]. unfold outs in K. apply in_flat_map in K as (z & K1 & K2).
    rewrite Forall_forall in F. specialize (F z K1). destruct z as [b|z]; [destruct K2|]. destruct K2 as [<-|[]]. apply op_text_nfc_ss, F. }
  rewrite <- (chain_nfc_ss (texts (outs os))); [|destruct HS; [constructor|assumption]|exact NF]. rewrite W.
  unfold string_ok, substring_ok, nfc_ss, nfc_text. rewrite stream_safe_spec. tauto.
Qed.
