(** Several writers with colours over one stream. *)
From Coq Require Import NArith Arith List Bool Lia ZifyBool ZifyNat ZifyN.
From Verif Require Import Base Ucd UcdTables Norm Chars TextTables TextUtils UcdFacts NormFacts CharFacts DocTable SpecText TextFacts PipelineFacts DocFacts IsoFacts
  Utf8 Utf8Facts Input Output ReadFacts ReadInv ReadSession SpecRead ReadChunk SpecEscape EscapeFacts EscapeRun ReadProps KeepFacts ReadPieces SpecConv ConvFacts DocProps
  SpecWrite WriteFacts WriteProps SpecMore CanonProps SpecColour ColourProps SpecCat SpecCrash SpecDamage Shared SpecShared SharedProps SpecSharedColour.
From Verif Require DebugProps.
Import ListNotations.
Local Open Scope N_scope.
Arguments N.add : simpl never.
Arguments N.leb : simpl never.
Arguments N.ltb : simpl never.
Arguments N.eqb : simpl never.
Local Opaque pipeline.

Definition cstepped (cr : bool) (d : doc) (o : cop) (b : bool) (d' : doc) : Prop :=
  exists a, sent d' = sent d ++ a /\ beginning a (as_sent cr (cop_shown o)) /\ (b = true -> a = as_sent cr (cop_shown o)) /\ (whole (outcomes d) -> whole (outcomes d') /\ (b = false -> a = [])).
Lemma cop_stepped : forall cr d o b d', cop_ok o -> spec_cop cr d o = (b, d') -> cstepped cr d o b d'.
Proof.
  intros cr d o b d' OK H.
  assert (OTHER : plain_op (cop_op o) -> op_text (cop_op o) = cop_shown o -> spec_op cr d (cop_op o) = (b, d') -> cstepped cr d o b d').
  { intros HP ET S. destruct (spec_stepped cr d (cop_op o) b d' HP S) as (a & S1 & B1 & O1 & W1 & _). rewrite ET in *. exists a. split; [exact S1|]. split; [exact B1|]. split; [intro K; now apply O1|exact W1]. }
  destruct o as [p|s| | |]; try (apply OTHER; [exact OK|reflexivity|exact H]). cbn [spec_cop] in H. unfold cstepped. cbn [cop_shown].
  assert (STAY : forall y, sent y = sent d -> outcomes y = outcomes d -> b = false -> d' = y ->
    exists a, sent d' = sent d ++ a /\ beginning a (as_sent cr (shown p)) /\ (b = true -> a = as_sent cr (shown p)) /\ (whole (outcomes d) -> whole (outcomes d') /\ (b = false -> a = []))).
  { intros y S1 O1 -> ->. exists []. rewrite app_nil_r, O1. split; [exact S1|]. split; [apply beginning_nil|]. split; [discriminate|auto]. }
  destruct (failed d); [injection H as <- <-; now apply (STAY d)|]. destruct (negb _); [injection H as <- <-; now apply (STAY (fail d))|].
  unfold spec_send in H. destruct (fresh d && _); [injection H as <- <-; now apply (STAY (fail d))|].
  destruct (outcomes d) as [|[|n] l]; injection H as <- <-; cbn [sent outcomes].
  - exists (as_sent cr (shown p)). split; [reflexivity|]. split; [apply beginning_refl|]. split; [reflexivity|]. intro W. split; [exact W|discriminate].
  - exists (as_sent cr (shown p)). split; [reflexivity|]. split; [apply beginning_refl|]. split; [reflexivity|]. intro W. split; [exact (Forall_inv_tail W)|discriminate].
  - exists (firstn n (as_sent cr (shown p))). split; [reflexivity|]. split; [exists (skipn n (as_sent cr (shown p))); now rewrite firstn_skipn|]. split; [discriminate|].
    intro W. split; [exact (Forall_inv_tail W)|]. intros _. pose proof (Forall_inv W) as W0. cbn in W0. subst n. reflexivity.
Qed.
Definition cagrees (cr : bool) (s : shared) (ds : nat -> doc) : Prop := forall k, crefines cr (ds k) (at_stream s k).
Lemma crefines_moved : forall cr d w a o, crefines cr d w -> crefines cr (mkdoc (SpecWrite.text d) a (fresh d) (failed d) o) (set_inner w (mksink a o (abandoned (inner w)))).
Proof. intros cr d w a o [A (H1 & H2 & H3 & _ & H5 & _ & H7)]. split; [exact A|]. unfold refines, plainly in *. cbn in *. auto 10. Qed.
Lemma crefines_sent : forall cr d w, crefines cr d w -> emitted (inner w) = sent d /\ script (inner w) = outcomes d.
Proof. intros cr d w [_ (_ & _ & _ & E1 & _ & E2 & _)]. auto. Qed.
Lemma coloured_step : forall cr s ds k o r s', cagrees cr s ds -> cop_ok o -> shared_op s k (cop_op o) = (r, s') -> exists ds', cagrees cr s' ds' /\ cstepped cr (ds k) o (ok r) (ds' k).
Proof.
  intros cr s ds k o r s' A HP H. unfold shared_op in H. change (set_inner (member s k) _) with (at_stream s k) in H.
  destruct (cop_refines cr (ds k) (at_stream s k) o (A k) HP) as [RB RW]. destruct (do_op (at_stream s k) (cop_op o)) as [r1 w1]. injection H as <- <-. cbn [fst snd] in RB, RW.
  destruct (spec_cop cr (ds k) o) as [b d1] eqn:E. cbn [fst snd] in RB, RW. pose proof (cop_stepped _ _ _ _ _ HP E) as ST. rewrite <- RB in ST.
  exists (fun j => if Nat.eqb j k then d1 else mkdoc (SpecWrite.text (ds j)) (sent d1) (fresh (ds j)) (failed (ds j)) (outcomes d1)). rewrite Nat.eqb_refl. split; [|exact ST].
  intro j. unfold at_stream. cbn [member accepted answers]. destruct (crefines_sent _ _ _ RW) as [E1 E2]. destruct (Nat.eqb_spec j k) as [->|NE].
  - apply (crefines_moved _ _ _ (sent d1) (outcomes d1)) in RW. rewrite E1, E2. destruct d1. exact RW.
  - rewrite E1, E2. exact (crefines_moved _ _ _ (sent d1) (outcomes d1) (A j)).
Qed.
Lemma cagrees_sent : forall cr s ds k, cagrees cr s ds -> sent (ds k) = accepted s /\ outcomes (ds k) = answers s.
Proof. intros cr s ds k A. destruct (crefines_sent _ _ _ (A k)) as [E1 E2]. auto. Qed.
Lemma coloured_sent : forall h cr s ds rs s', cagrees cr s ds -> Forall (fun x => cop_ok (snd x)) h -> shared_ops s (calls h) = (rs, s') -> whole (answers s) -> accepted s' = accepted s ++ as_sent cr (shown_by (done h rs)).
Proof.
  induction h as [|[k o] h IH]; intros cr s ds rs s' A HP H W; cbn [calls map fst snd shared_ops] in H.
  - injection H as <- <-. cbn. destruct cr; cbn; now rewrite app_nil_r.
  - destruct (shared_op s k (cop_op o)) as [r s1] eqn:E1. fold (calls h) in H. destruct (shared_ops s1 (calls h)) as [rs1 s2] eqn:E2. injection H as <- <-.
    destruct (coloured_step cr s ds k o r s1 A (Forall_inv HP) E1) as (ds1 & A1 & (a & SA & BA & OK & WH)). destruct (cagrees_sent cr s ds k A) as [S0 O0], (cagrees_sent cr s1 ds1 k A1) as [S1 O1].
    rewrite S0, S1 in SA. rewrite O0, O1 in WH. destruct (WH W) as [W1 NA]. rewrite (IH cr s1 ds1 rs1 s2 A1 (Forall_inv_tail HP) E2 W1), SA, <- app_assoc. f_equal.
    destruct r as [e|]; cbn [done]; [now rewrite (NA eq_refl)|]. rewrite (OK eq_refl). unfold shown_by. cbn [map concat]. now rewrite as_sent_app.
Qed.
Theorem coloured_whole : forall cr p a h rs s, shared_ops (new_coloured cr p a) (calls h) = (rs, s) -> Forall (fun x => cop_ok (snd x)) h -> whole a -> accepted s = p ++ as_sent cr (shown_by (done h rs)).
Proof.
  intros cr p a h rs s H HP W. apply (coloured_sent h cr (new_coloured cr p a) (fun _ => new_doc p a) rs s); auto. intro k. exact (new_crefines cr p a).
Qed.
Lemma done_all : forall (P : cop -> Prop) h rs, Forall (fun x => P (snd x)) h -> Forall P (done h rs).
Proof. intros P h. induction h as [|[k o] h IH]; intros [|[e|] rs] F; cbn [done]; try constructor; try (apply IH; exact (Forall_inv_tail F)). exact (Forall_inv F). Qed.
Lemma lines_app : forall a b, whole_lines a -> whole_lines b -> whole_lines (a ++ b).
Proof.
  intros a b (OA & LA & SA) (OB & LB & SB). destruct LA as [->|[u EU]]; [exact (conj OB (conj LB SB))|]. destruct OA as (KA & TA & _), OB as (KB & TB & EB). apply DebugProps.sub_ok_iff in KA, KB. destruct KA as [NA AA], KB as [NB AB].
  assert (L : line_terminated (a ++ b)) by (destruct LB as [->|[v ->]]; [rewrite app_nil_r; right; now exists u|right; exists (a ++ v); now rewrite app_assoc]).
  split; [|split; [exact L|apply Forall_app; now split]]. split; [|split].
  - apply DebugProps.sub_ok_iff. split; [|apply Forall_app; now split]. rewrite EU in *. apply nfc_ss_join; auto. exact boring_LF.
  - intros c v E. destruct a as [|d a]; [destruct u; discriminate|]. injection E as <- _. exact (TA d a eq_refl).
  - intros v c E. destruct L as [L|[w L]]; rewrite L in E; [destruct v; discriminate|]. apply app_inj_tail in E. destruct E as [_ <-]. vm_compute. reflexivity.
Qed.
Lemma term_app : forall a b, line_terminated a -> line_terminated b -> line_terminated (a ++ b).
Proof. intros a b [->|[u ->]] [->|[v ->]]; [now left|right; now exists v|right; exists u; now rewrite app_nil_r|right; exists ((u ++ [0xA]) ++ v); now rewrite <- !app_assoc]. Qed.
Lemma no_lines : whole_lines [].
Proof.
  split; [|split; [now left|exact (Forall_nil _)]]. apply basic_text_spec. vm_compute. reflexivity.
Qed.
Lemma coloured_all : forall l, Forall line_cop l -> coloured_lines (shown_by l) (text_by l).
Proof.
  induction 1 as [|o l (U & L & W) F IH]; [split; [exact unc_nil|]; split; [now left|exact no_lines]|].
  destruct IH as (U2 & L2 & W2). unfold shown_by, text_by. cbn [map concat]. split; [now apply unc_app|]. split; [now apply term_app|now apply lines_app].
Qed.
Theorem coloured_read : forall (bom cr : bool) a h rs s nel lsps sc o, shared_ops (new_coloured cr (if bom then [0xFEFF] else []) a) (calls h) = (rs, s) -> Forall (fun x => cop_ok (snd x)) h -> Forall (fun x => line_cop (snd x)) h -> whole a ->
  let t := text_by (done h rs) in Forall (fun c => is_assigned c = true) t -> stream_text sc = accepted s -> regular sc -> gives nel lsps sc o -> o = t.
Proof.
  intros bom cr a h rs s nel lsps sc o H HP HL W t A E [NP BV] (sizes & out & j & rest & R & EN & <-). destruct (coloured_all (done h rs) (done_all line_cop h rs HL)) as (U & L & OK & _ & _). fold t in U, OK.
  apply (colour_read_back bom cr nel lsps (shown_by (done h rs)) t sc sizes out j rest); auto. rewrite E. exact (coloured_whole _ _ _ _ _ _ H HP W).
Qed.
