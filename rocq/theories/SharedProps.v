(** Several writers over one stream. *)
From Coq Require Import NArith Arith List Bool Lia ZifyBool ZifyNat ZifyN.
From Verif Require Import Base Ucd UcdTables Norm Chars TextTables TextUtils UcdFacts NormFacts CharFacts DocTable SpecText TextFacts PipelineFacts DocFacts IsoFacts
  Utf8 Utf8Facts Input Output ReadFacts ReadInv ReadSession SpecRead ReadChunk SpecEscape EscapeFacts EscapeRun ReadProps KeepFacts ReadPieces SpecConv ConvFacts DocProps
  SpecWrite WriteFacts WriteProps SpecMore CanonProps SpecCat SpecCrash Shared SpecShared.
Import ListNotations.
Local Open Scope N_scope.
Arguments N.add : simpl never.
Arguments N.leb : simpl never.
Arguments N.ltb : simpl never.
Arguments N.eqb : simpl never.
Local Opaque pipeline.

(** What one call does. *)
Definition stepped (cr : bool) (d : doc) (o : wop) (b : bool) (d' : doc) : Prop :=
  exists a, sent d' = sent d ++ a /\ beginning a (as_sent cr (op_text o)) /\
  (b = true -> a = as_sent cr (op_text o) /\ Forall allowed (op_text o) /\ (is_write o = true -> fresh d = true -> opt_all is_basic_text_start (head_opt (op_text o)) = true)) /\
  (whole (outcomes d) -> whole (outcomes d') /\ (b = false -> a = [])) /\
  (fresh d = true -> b = true /\ is_write o = true \/ fresh d' = true \/ failed d' = true) /\ (failed d = true -> failed d' = true /\ (b = false \/ is_write o = false)).
Lemma beginning_nil : forall x, beginning [] x.
Proof. intro x. now exists x. Qed.
Lemma beginning_refl : forall x, beginning x x.
Proof. intro x. exists []. now rewrite app_nil_r. Qed.
Lemma spec_stepped : forall cr d o b d', plain_op o -> spec_op cr d o = (b, d') -> stepped cr d o b d'.
Proof.
  intros cr d o b d' HP H.
  assert (NX : as_sent cr [] = []) by (destruct cr; reflexivity).
  assert (STAY : forall o' y, sent y = sent d -> outcomes y = outcomes d -> failed y = true -> b = false -> d' = y -> stepped cr d o' b d').
  { intros o' y S1 O1 F1 -> ->. exists []. rewrite app_nil_r. split; [exact S1|]. split; [apply beginning_nil|]. split; [discriminate|]. rewrite O1. split; [auto|]. split; [auto|]. auto. }
  assert (SEND : forall o' y, op_text o' = y -> is_write o' = true -> Forall allowed y -> failed d = false -> spec_send cr d y = (b, d') -> stepped cr d o' b d').
  { intros o' y ET EW AL F SS. unfold spec_send in SS. destruct (fresh d && negb _) eqn:EF; [injection SS as <- <-; now apply (STAY o' (fail d))|].
    assert (ST : fresh d = true -> opt_all is_basic_text_start (head_opt y) = true) by (intro FR; rewrite FR in EF; cbn [andb] in EF; now apply negb_false_iff).
    unfold stepped. rewrite ET, EW. destruct (outcomes d) as [|[|n] l] eqn:EO; injection SS as <- <-; cbn [sent outcomes fresh failed].
    - exists (as_sent cr y). split; [reflexivity|]. split; [apply beginning_refl|]. split; [auto|]. split; [intro W; split; [exact W|discriminate]|]. split; [auto|]. intro K. congruence.
    - exists (as_sent cr y). split; [reflexivity|]. split; [apply beginning_refl|]. split; [auto|]. split; [intro W; split; [exact (Forall_inv_tail W)|discriminate]|]. split; [auto|]. intro K. congruence.
    - exists (firstn n (as_sent cr y)). split; [reflexivity|]. split; [exists (skipn n (as_sent cr y)); now rewrite firstn_skipn|]. split; [discriminate|].
      split; [intro W; split; [exact (Forall_inv_tail W)|]; intros _; pose proof (Forall_inv W) as W0; cbn in W0; subst n; reflexivity|]. split; [auto|]. intro K. congruence. }
  assert (CALL : forall o', op_text o' = [] -> is_write o' = false -> failed d = false -> spec_call d = (b, d') -> stepped cr d o' b d').
  { intros o' ET EW F SS. unfold stepped, spec_call in *. rewrite ET, EW, NX. exists []. rewrite app_nil_r.
    assert (K : (b = true -> @nil N = [] /\ Forall allowed [] /\ (false = true -> fresh d = true -> opt_all is_basic_text_start (head_opt []) = true))) by (intros _; split; [reflexivity|split; [constructor|discriminate]]).
    destruct (outcomes d) as [|[|n] l]; injection SS as <- <-; cbn [sent outcomes fresh failed]; (split; [reflexivity|]; split; [apply beginning_nil|]; split; [exact K|]).
    - split; [auto|]. split; [auto|]. intro F1. congruence.
    - split; [intro W; split; [exact (Forall_inv_tail W)|auto]|]. split; [auto|]. intro F1. congruence.
    - split; [intro W; split; [exact (Forall_inv_tail W)|auto]|]. split; [auto|]. intro F1. congruence. }
  assert (WRITE : forall o' s, op_text o' = pipeline s -> is_write o' = true -> spec_write cr d s = (b, d') -> stepped cr d o' b d').
  { intros o' s ET EW SS. unfold spec_write in SS. destruct (failed d) eqn:F; [injection SS as <- <-; now apply (STAY o' d)|].
    destruct (forallb allowedb s) eqn:AL; cbn [negb] in SS; [|injection SS as <- <-; now apply (STAY o' (fail d))]. apply (SEND o' (pipeline s)); auto. now apply allowed_pipeline. }
  destruct o as [s|s|bs| | |]; cbn [spec_op] in H.
  - now apply (WRITE _ s).
  - unfold spec_write_text in H. destruct (failed d) eqn:F; [injection H as <- <-; now apply (STAY _ d)|]. apply (SEND _ s); auto. apply substr_allowed. exact (proj2 HP).
  - destruct (decode bs) as [cs rest] eqn:ED. assert (ET : op_text (OpWrite bs) = pipeline cs) by (cbn [op_text]; now rewrite ED).
    destruct cs as [|c cs]; [destruct rest as [|x rest]; [now apply (WRITE _ [])|injection H as <- <-; now apply (STAY _ (fail d))]|now apply (WRITE _ (c :: cs))].
  - unfold spec_flush in H. destruct (failed d) eqn:F; [injection H as <- <-; now apply (STAY _ d)|]. destruct (opt_all _ _); [now apply CALL|injection H as <- <-; now apply (STAY _ (fail d))].
  - unfold spec_close in H. destruct (failed d) eqn:F; [injection H as <- <-; now apply (STAY _ d)|]. destruct (last_opt (SpecWrite.text d)) as [c|]; [destruct (c =? 10)|]; first [now apply CALL|injection H as <- <-; now apply (STAY _ (fail d))].
  - injection H as <- <-. unfold stepped. cbn [op_text is_write sent fail outcomes fresh failed]. rewrite NX. exists []. rewrite app_nil_r. split; [reflexivity|]. split; [apply beginning_nil|]. split; [split; [reflexivity|split; [constructor|discriminate]]|]. auto 10.
Qed.

(** The writers and the text each of them has written. *)
Definition at_stream (s : shared) (k : nat) : writer := set_inner (member s k) (mksink (accepted s) (answers s) (abandoned (inner (member s k)))).
Definition agrees (crs : nat -> bool) (s : shared) (ds : nat -> doc) : Prop := forall k, refines (crs k) (ds k) (at_stream s k).
Lemma refines_moved : forall cr d w a o, refines cr d w -> refines cr (mkdoc (SpecWrite.text d) a (fresh d) (failed d) o) (set_inner w (mksink a o (abandoned (inner w)))).
Proof. intros cr d w a o (H1 & H2 & H3 & _ & H5 & _ & H7). unfold refines. cbn. auto 10. Qed.
Lemma shared_step : forall crs s ds k o r s', agrees crs s ds -> plain_op o -> shared_op s k o = (r, s') ->
  exists ds', agrees crs s' ds' /\ stepped (crs k) (ds k) o (ok r) (ds' k) /\ (forall j, j <> k -> fresh (ds' j) = fresh (ds j) /\ failed (ds' j) = failed (ds j)).
Proof.
  intros crs s ds k o r s' A HP H. unfold shared_op in H. change (set_inner (member s k) _) with (at_stream s k) in H.
  destruct (op_refines (crs k) (ds k) (at_stream s k) o (A k) HP) as [RB RW]. destruct (do_op (at_stream s k) o) as [r1 w1]. injection H as <- <-. cbn [fst snd] in RB, RW.
  destruct (spec_op (crs k) (ds k) o) as [b d1] eqn:E. cbn [fst snd] in RB, RW. pose proof (spec_stepped _ _ _ _ _ HP E) as ST. rewrite <- RB in ST.
  exists (fun j => if Nat.eqb j k then d1 else mkdoc (SpecWrite.text (ds j)) (sent d1) (fresh (ds j)) (failed (ds j)) (outcomes d1)). rewrite Nat.eqb_refl. split; [|split; [exact ST|]].
  - intro j. unfold at_stream. cbn [member accepted answers]. pose proof RW as (_ & _ & _ & E1 & _ & E2 & _). destruct (Nat.eqb_spec j k) as [->|NE].
    + apply (refines_moved _ _ _ (sent d1) (outcomes d1)) in RW. rewrite E1, E2. destruct d1. exact RW.
    + rewrite E1, E2. exact (refines_moved _ _ _ (sent d1) (outcomes d1) (A j)).
  - intros j NE. destruct (Nat.eqb_spec j k); [contradiction|]. auto.
Qed.
Lemma agrees_sent : forall crs s ds k, agrees crs s ds -> sent (ds k) = accepted s /\ outcomes (ds k) = answers s.
Proof. intros crs s ds k A. destruct (A k) as (_ & _ & _ & E1 & _ & E2 & _). auto. Qed.
Lemma agrees_new : forall crs p a, agrees crs (new_shared crs p a) (fun _ => new_doc p a).
Proof. intros crs p a k. exact (new_refines (crs k) p a). Qed.

Definition plain_history (h : list (nat * wop)) : Prop := Forall (fun x => plain_op (snd x)) h.
Lemma history_sent : forall h crs s ds rs s', agrees crs s ds -> plain_history h -> shared_ops s h = (rs, s') ->
  exists ps, went crs h rs ps /\ accepted s' = accepted s ++ concat ps /\
  (whole (answers s) -> forall cr, (forall k, crs k = cr) -> concat ps = as_sent cr (concat (map op_text (succeeded h rs)))).
Proof.
  induction h as [|[k o] h IH]; intros crs s ds rs s' A HP H; cbn [shared_ops] in H.
  - injection H as <- <-. exists []. split; [constructor|]. cbn. rewrite app_nil_r. split; [reflexivity|]. intros _ [|] _; reflexivity.
  - destruct (shared_op s k o) as [r s1] eqn:E1. destruct (shared_ops s1 h) as [rs1 s2] eqn:E2. injection H as <- <-.
    destruct (shared_step crs s ds k o r s1 A (Forall_inv HP) E1) as (ds1 & A1 & (a & SA & BA & OK & WH & _) & _).
    destruct (IH crs s1 ds1 rs1 s2 A1 (Forall_inv_tail HP) E2) as (ps & W & AC & CC).
    destruct (agrees_sent crs s ds k A) as [S0 O0], (agrees_sent crs s1 ds1 k A1) as [S1 O1]. rewrite S0, S1 in SA. rewrite O0, O1 in WH.
    exists (a :: ps). split; [|split].
    + destruct r as [e|]; [now apply went_failed|]. destruct (OK eq_refl) as (-> & _). now apply went_ok.
    + rewrite AC, SA. cbn [concat]. now rewrite <- app_assoc.
    + intros WA cr CR. destruct (WH WA) as [W1 NA]. cbn [concat]. rewrite (CC W1 cr CR). destruct r as [e|]; cbn [succeeded]; [now rewrite (NA eq_refl)|].
      destruct (OK eq_refl) as (-> & _). cbn [map concat]. now rewrite as_sent_app, CR.
Qed.
Theorem shared_sent : forall crs p a h rs s, shared_ops (new_shared crs p a) h = (rs, s) -> plain_history h -> exists ps, went crs h rs ps /\ accepted s = p ++ concat ps.
Proof. intros crs p a h rs s H HP. destruct (history_sent h crs _ _ _ _ (agrees_new crs p a) HP H) as (ps & W & A & _). now exists ps. Qed.
Theorem shared_whole : forall cr p a h rs s, shared_ops (new_shared (fun _ => cr) p a) h = (rs, s) -> plain_history h -> whole a -> accepted s = p ++ as_sent cr (concat (map op_text (succeeded h rs))).
Proof.
  intros cr p a h rs s H HP W. destruct (history_sent h _ _ _ _ _ (agrees_new (fun _ => cr) p a) HP H) as (ps & _ & A & C). rewrite A. f_equal. now apply (C W).
Qed.
(** The text is valid. *)
Lemma history_valid : forall h crs s ds rs s', agrees crs s ds -> plain_history h -> Forall (fun x => line_op (snd x)) h -> shared_ops s h = (rs, s') ->
  let t := concat (map op_text (succeeded h rs)) in Forall allowed t /\ line_terminated t /\ ((forall k, failed (ds k) = true \/ fresh (ds k) = true) -> starts_ok t).
Proof.
  induction h as [|[k o] h IH]; intros crs s ds rs s' A HP HL H; cbn [shared_ops] in H.
  - injection H as <- <-. cbn. split; [constructor|]. split; [now left|]. intros _ c u E. discriminate.
  - destruct (shared_op s k o) as [r s1] eqn:E1. destruct (shared_ops s1 h) as [rs1 s2] eqn:E2. injection H as <- <-.
    destruct (shared_step crs s ds k o r s1 A (Forall_inv HP) E1) as (ds1 & A1 & (a & SA & BA & OK & WH & FR & FD) & OT).
    destruct (IH crs s1 ds1 rs1 s2 A1 (Forall_inv_tail HP) (Forall_inv_tail HL) E2) as (T1 & T2 & T3).
    assert (QUIET : ok r = false \/ is_write o = false -> (forall j, failed (ds j) = true \/ fresh (ds j) = true) -> starts_ok (concat (map op_text (succeeded h rs1)))).
    { intros Q AF. apply T3. intro j. destruct (Nat.eq_dec j k) as [->|NE].
      - destruct (AF k) as [F|F]; [left; now apply FD|]. destruct (FR F) as [[B W]|[K|K]]; [|auto|auto]. destruct Q; congruence.
      - destruct (OT j NE) as [-> ->]. apply AF. }
    cbv zeta. destruct r as [e|]; cbn [succeeded ok] in *; [split; [exact T1|]; split; [exact T2|]; apply QUIET; now left|].
    destruct (OK eq_refl) as (_ & AL & ST). cbn [map concat]. split; [apply Forall_app; now split|].
    pose proof (Forall_inv HL) as L. cbn [snd] in L. unfold line_op in L. destruct (is_write o) eqn:EW.
    + destruct (L eq_refl) as [u EU]. split.
      * rewrite EU. destruct T2 as [->|[v ->]]; [rewrite app_nil_r; right; now exists u|]. right. exists ((u ++ [0xA]) ++ v). now rewrite <- !app_assoc.
      * intros AF c v EV. destruct (AF k) as [F|F]; [destruct (FD F) as [_ [K|K]]; discriminate|]. specialize (ST eq_refl F). destruct (op_text o) as [|c' w]; [destruct u; discriminate|]. injection EV as <- _. exact ST.
    + assert (EN : op_text o = []) by (destruct o; try discriminate; reflexivity). rewrite EN. cbn [app]. split; [exact T2|]. apply QUIET. now right.
Qed.
Lemma succeeded_plain : forall (P : wop -> Prop) h rs, Forall (fun x => P (snd x)) h -> Forall P (succeeded h rs).
Proof.
  intros P h. induction h as [|[k o] h IH]; intros [|[e|] rs] F; cbn [succeeded]; try constructor; try (apply IH; exact (Forall_inv_tail F)). exact (Forall_inv F).
Qed.
Theorem shared_valid : forall crs p a h rs s, shared_ops (new_shared crs p a) h = (rs, s) -> plain_history h -> Forall (fun x => line_op (snd x)) h ->
  let t := concat (map op_text (succeeded h rs)) in string_ok t /\ line_terminated t.
Proof.
  intros crs p a h rs s H HP HL t. destruct (history_valid h crs _ _ rs s (agrees_new crs p a) HP HL H) as (A & L & S). split; [|exact L].
  assert (E : nfc_ss t) by (apply lines_nfc_ss; now apply succeeded_plain).
  split; [destruct E as [E1 E2]; split; [exact E1|split; [now apply stream_safe_spec|exact A]]|]. split; [apply S; intro k; now right|].
  intros u c EU. destruct L as [L|[v L]]; fold t in L; rewrite L in EU; [destruct u; discriminate|]. apply app_inj_tail in EU. destruct EU as [_ <-]. vm_compute. reflexivity.
Qed.

Theorem shared_read : forall (bom cr : bool) a h rs s nel lsps sc o, shared_ops (new_shared (fun _ => cr) (if bom then [0xFEFF] else []) a) h = (rs, s) -> plain_history h -> Forall (fun x => line_op (snd x)) h -> whole a ->
  let t := concat (map op_text (succeeded h rs)) in Forall (fun c => is_assigned c = true) t -> stream_text sc = accepted s -> regular sc -> gives nel lsps sc o -> o = t.
Proof.
  intros bom cr a h rs s nel lsps sc o H HP HL W t A E [NP BV] (sizes & out & j & rest & R & EN & <-). destruct (shared_valid _ _ _ _ _ _ H HP HL) as [OK LT]. fold t in OK, LT.
  apply (read_back bom cr nel lsps t sc sizes out j rest); auto. rewrite E. exact (shared_whole _ _ _ _ _ _ H HP W).
Qed.
Theorem shared_read_at_once : forall (bom cr : bool) a h rs s nel lsps o, shared_ops (new_shared (fun _ => cr) (if bom then [0xFEFF] else []) a) h = (rs, s) -> plain_history h -> Forall (fun x => line_op (snd x)) h -> whole a ->
  let t := concat (map op_text (succeeded h rs)) in preceded t -> gives nel lsps [Chunk (accepted s) End] o -> o = t.
Proof.
  intros bom cr a h rs s nel lsps o H HP HL W t A (sizes & out & j & rest & R & EN & <-). destruct (shared_valid _ _ _ _ _ _ H HP HL) as [OK LT]. fold t in OK, LT.
  rewrite (shared_whole _ _ _ _ _ _ H HP W) in R. exact (read_back_at_once bom cr nel lsps t sizes out j rest OK LT A R EN).
Qed.
(** A failed writer stays failed. *)
Lemma history_failed : forall h crs s ds rs s' k, agrees crs s ds -> plain_history h -> shared_ops s h = (rs, s') -> failed (ds k) = true -> exists ds', agrees crs s' ds' /\ failed (ds' k) = true.
Proof.
  induction h as [|[j o] h IH]; intros crs s ds rs s' k A HP H F; cbn [shared_ops] in H; [injection H as <- <-; now exists ds|].
  destruct (shared_op s j o) as [r s1] eqn:E1. destruct (shared_ops s1 h) as [rs1 s2] eqn:E2. injection H as <- <-.
  destruct (shared_step crs s ds j o r s1 A (Forall_inv HP) E1) as (ds1 & A1 & (a & _ & _ & _ & _ & _ & FD) & OT).
  apply (IH crs s1 ds1 rs1 s2 k A1 (Forall_inv_tail HP) E2). destruct (Nat.eq_dec k j) as [->|NE]; [now apply FD|]. destruct (OT k NE) as [_ ->]. exact F.
Qed.
Lemma write_fails : forall cr d o d', is_write o = true -> spec_op cr d o = (false, d') -> failed d' = true.
Proof.
  intros cr d o d' W H.
  assert (SEND : forall y, spec_send cr d y = (false, d') -> failed d' = true) by (intros y S; unfold spec_send in S; destruct (fresh d && _); [now injection S as <-|]; destruct (outcomes d) as [|[|n] l]; try discriminate; now injection S as <-).
  assert (WRITE : forall s, spec_write cr d s = (false, d') -> failed d' = true).
  { intros s S. unfold spec_write in S. destruct (failed d) eqn:F; [injection S as <-; exact F|]. destruct (negb _); [now injection S as <-|now apply (SEND (pipeline s))]. }
  destruct o as [s|s|bs| | |]; try discriminate; cbn [spec_op] in H; [now apply (WRITE s)| |].
  - unfold spec_write_text in H. destruct (failed d) eqn:F; [injection H as <-; exact F|now apply (SEND s)].
  - destruct (decode bs) as [[|c cs] [|x rest]]; [now apply (WRITE [])|now injection H as <-|now apply (WRITE (c :: cs))|now apply (WRITE (c :: cs))].
Qed.
Lemma failed_call : forall cr d o b d', failed d = true -> o <> OpAbandon -> spec_op cr d o = (b, d') -> b = false /\ sent d' = sent d.
Proof.
  intros cr d o b d' F NA H. destruct o as [s|s|bs| | |]; cbn [spec_op] in H; unfold spec_write, spec_write_text, spec_flush, spec_close in H; rewrite ?F in H; try (injection H as <- <-; auto).
  - destruct (decode bs) as [[|c cs] [|x rest]]; injection H as <- <-; auto.
  - now destruct NA.
Qed.
Lemma shared_ops_app : forall h1 h2 s, shared_ops s (h1 ++ h2) = let '(r1, s1) := shared_ops s h1 in let '(r2, s2) := shared_ops s1 h2 in (r1 ++ r2, s2).
Proof.
  induction h1 as [|[k o] h1 IH]; intros h2 s; cbn [app shared_ops]; [now destruct (shared_ops s h2)|]. destruct (shared_op s k o) as [r s1]. rewrite IH. destruct (shared_ops s1 h1) as [r1 s2]. now destruct (shared_ops s2 h2).
Qed.
Lemma history_agrees : forall h crs s ds rs s', agrees crs s ds -> plain_history h -> shared_ops s h = (rs, s') -> exists ds', agrees crs s' ds' /\ length rs = length h.
Proof.
  induction h as [|[j o] h IH]; intros crs s ds rs s' A HP H; cbn [shared_ops] in H; [injection H as <- <-; now exists ds|].
  destruct (shared_op s j o) as [r s1] eqn:E1. destruct (shared_ops s1 h) as [rs1 s2] eqn:E2. injection H as <- <-.
  destruct (shared_step crs s ds j o r s1 A (Forall_inv HP) E1) as (ds1 & A1 & _). destruct (IH crs s1 ds1 rs1 s2 A1 (Forall_inv_tail HP) E2) as (ds2 & A2 & L). exists ds2. cbn. auto.
Qed.
Theorem shared_ended : forall crs p a h1 k o h2 rs s e o', shared_ops (new_shared crs p a) (h1 ++ (k, o) :: h2) = (rs, s) -> plain_history (h1 ++ (k, o) :: h2) -> is_write o = true -> nth_error rs (length h1) = Some (Some e) ->
  plain_op o' -> o' <> OpAbandon -> exists e', fst (shared_op s k o') = Some e' /\ accepted (snd (shared_op s k o')) = accepted s.
Proof.
  intros crs p a h1 k o h2 rs s e o' H HP W NE HO NA. rewrite shared_ops_app in H. apply Forall_app in HP. destruct HP as [HP1 HP2].
  destruct (shared_ops (new_shared crs p a) h1) as [r1 s1] eqn:E1. destruct (history_agrees h1 crs _ _ r1 s1 (agrees_new crs p a) HP1 E1) as (ds1 & A1 & L1).
  cbn [shared_ops] in H. destruct (shared_op s1 k o) as [r s2] eqn:E2. destruct (shared_ops s2 h2) as [r2 s3] eqn:E3. injection H as <- <-.
  rewrite nth_error_app2, L1, Nat.sub_diag in NE by lia. cbn in NE. injection NE as ->.
  assert (K : exists ds2, agrees crs s2 ds2 /\ failed (ds2 k) = true).
  { destruct (shared_step crs s1 ds1 k o _ s2 A1 (Forall_inv HP2) E2) as (ds2 & A2 & _). exists ds2. split; [exact A2|].
    destruct (op_refines (crs k) (ds1 k) (at_stream s1 k) o (A1 k) (Forall_inv HP2)) as [RB RW]. unfold shared_op in E2. change (set_inner (member s1 k) _) with (at_stream s1 k) in E2.
    destruct (do_op (at_stream s1 k) o) as [rr w1]. injection E2 as -> <-. cbn [fst snd] in RB, RW. destruct (spec_op (crs k) (ds1 k) o) as [b d1] eqn:ES. cbn [fst snd ok] in RB, RW. subst b. apply write_fails in ES; [|exact W].
    destruct (A2 k) as (_ & _ & _ & _ & AB & _). unfold at_stream in AB. cbn [member] in AB. rewrite Nat.eqb_refl in AB. cbn in AB. destruct RW as (_ & _ & _ & _ & AW & _). congruence. }
  destruct K as (ds2 & A2 & F2). destruct (history_failed h2 crs s2 ds2 r2 s3 k A2 (Forall_inv_tail HP2) E3 F2) as (ds3 & A3 & F3).
  destruct (op_refines (crs k) (ds3 k) (at_stream s3 k) o' (A3 k) HO) as [RB RW]. unfold shared_op. change (set_inner (member s3 k) _) with (at_stream s3 k).
  destruct (do_op (at_stream s3 k) o') as [rr w1]. cbn [fst snd accepted] in *. destruct (spec_op (crs k) (ds3 k) o') as [b d1] eqn:ES. cbn [fst snd] in RB, RW. destruct (failed_call _ _ _ _ _ F3 NA ES) as [-> SE].
  destruct rr as [e'|]; [|discriminate]. exists e'. split; [reflexivity|]. destruct RW as (_ & _ & _ & -> & _). rewrite SE. now destruct (agrees_sent crs s3 ds3 k A3).
Qed.
