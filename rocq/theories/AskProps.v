(** When a reader reads from its stream. *)
From Coq Require Import NArith Arith List Bool Lia ZifyBool ZifyNat ZifyN.
From Verif Require Import Base Ucd Norm Chars TextTables TextUtils Utf8 Input UcdFacts NormFacts CharFacts SpecText TextFacts PipelineFacts IsoFacts Utf8Facts ReadFacts ReadInv ReadSession
  SpecRead ReadChunk SpecEscape EscapeFacts EscapeRun ReadProps SpecConv ReadMore ScalarFacts WriteFacts SearchProps FuzzProps CatProps SpecCat SpecPush PushProps SpecPrompt PromptProps SizeProps SpecAsk.
Import ListNotations.
Local Open Scope N_scope.
Arguments N.add : simpl never.
Arguments N.leb : simpl never.
Arguments N.ltb : simpl never.
Arguments N.eqb : simpl never.
Local Opaque pipeline.

Lemma inner_asked : forall script o script', inner_read script = (o, script') -> asked script script'.
Proof.
  intros [|[cs s|] t] o script' H; cbn in H.
  - injection H as _ <-. apply ask_ended.
  - destruct s; injection H as _ <-; [apply ask_read|apply ask_read|apply ask_end].
  - injection H as _ <-. apply ask_read.
Qed.
Theorem asks_once : forall i script b r cs j script', read i script b = (r, cs, j, script') -> script' = script \/ asked script script'.
Proof.
  intros i script b r cs j script' H. unfold read in H. destruct (Nat.ltb b _); [injection H as _ _ _ <-; now left|].
  destruct (drain b b i) as [[cs1 e1] i1]. destruct (negb e1); [injection H as _ _ _ <-; now left|].
  destruct (negb (is_active (pending i1))); [injection H as _ _ _ <-; now left|].
  destruct (inner_read script) as [[[raw s]|] sc] eqn:E; right; apply (inner_asked _ _ _ E) || idtac.
  - destruct (drain _ _ _) as [[cs2 e2] i3]. destruct e2; injection H as _ _ _ <-; exact (inner_asked _ _ _ E).
  - injection H as _ _ _ <-. exact (inner_asked _ _ _ E).
Qed.

(** * Only after delivering what it has *)
Theorem asks_late : forall nel lsps used script sizes rs i held b r cs j script', holds nel lsps used script sizes rs i held ->
  read i script b = (r, cs, j, script') -> script <> [] -> script' <> script ->
  exists given more line, cs = given ++ more /\ held = given ++ line /\ (str_len given + 4 <= b)%nat /\ (line = [] \/ exists l, line = l ++ [0xA] /\ ~ In 0xA l).
Proof.
  intros nel lsps used script sizes rs i held b r cs j script' [H G] R NE DF. apply gives_converted in G.
  destruct (reads_spec _ _ _ _ _ _ (wf_new nel lsps) H) as (W & _ & _ & evs & new & TK & FD & AV).
  destruct (abs_new nel lsps) as [A0 V0]. rewrite A0 in FD. rewrite V0 in AV. cbn [app nel_compat lsps_compat new_input] in FD, AV. subst new.
  assert (ROOM : exists more, cs = avail i ++ more /\ (str_len (avail i) + 4 <= b)%nat).
  { unfold read in R. destruct (Nat.ltb b _) eqn:EB; [injection R as _ _ _ <-; congruence|]. apply Nat.ltb_ge in EB.
    assert (B4 : (4 <= b)%nat) by (unfold NORMALIZATION_BUFFER_SIZE, NORMALIZATION_BUFFER_LEN, MAX_UTF8_SIZE in EB; clear - EB; lia).
    destruct (drain b b i) as [[cs1 e1] i1] eqn:D1. destruct (drain_spec _ _ _ _ _ _ W D1) as (W1 & A1 & _ & _ & E1).
    destruct (drain_room _ _ _ _ _ _ B4 D1) as (L1 & L2 & _). destruct e1; cbn [negb] in R; [|injection R as _ _ _ <-; congruence].
    destruct (E1 eq_refl) as (A2 & _). rewrite A2, app_nil_r in A1. specialize (L2 eq_refl).
    destruct (negb (is_active (pending i1))); [injection R as _ _ _ K; congruence|]. rewrite A1.
    destruct (inner_read script) as [[[raw s]|] sc]; [|injection R as _ <- _ _; exists []; rewrite app_nil_r; split; [reflexivity|lia]].
    destruct (drain (b - str_len cs1) (b - str_len cs1) (finish (process_raw i1 raw) s)) as [[cs2 e2] i3]. exists cs2. split; [|lia]. destruct e2; injection R as _ <- _ _; reflexivity. }
  destruct ROOM as (more & -> & L). exists (avail i), more.
  destruct (took_suffix _ _ _ TK) as [EE|(u & E1 & E2 & E3)].
  - exfalso. destruct (took_end _ _ _ TK EE) as (k & _ & K). now apply NE.
  - apply app_inv_tail in E1. subst u. unfold converted_stream in G. rewrite E2, feed_app, FD in G. cbn [feed] in G.
    pose proof (feed_inv _ _ _ _ _ _ _ ainv_new FD) as AI. cbn [app] in AI.
    pose proof (absorb_last nel lsps _ _ _ AI eq_refl) as AL.
    destruct (absorb nel lsps (abs_of i) [] End) as [n2 a2]. cbn [fst] in *. rewrite app_nil_r, <- app_assoc in G. apply app_inv_head in G.
    exists n2. split; [reflexivity|]. split; [exact G|]. split; [exact L|].
    destruct AL as [(-> & _)|(y & -> & NL & _)]; [now left|]. right. eexists. split; [reflexivity|]. now apply pipeline_no_lf.
Qed.

(** * When it has nothing *)
Theorem asks_next : forall nel lsps script sizes rs i script1 b r cs j script2, reads (new_input nel lsps) script sizes = (rs, i, script1) -> left_room sizes rs ->
  (136 <= b)%nat -> read i script1 b = (r, cs, j, script2) -> asked script1 script2.
Proof.
  intros nel lsps script sizes rs i script1 b r cs j script2 H (sizes' & b' & rs' & n & s & cs' & -> & -> & L) B R.
  destruct (reads_snoc _ _ _ _ _ _ _ H) as (rs1 & j1 & sc1 & r1 & cs1 & R1 & R2 & E). apply app_inj_tail in E. destruct E as [<- E]. injection E as <- <-.
  destruct (reads_spec _ _ _ _ _ _ (wf_new nel lsps) R1) as (W1 & _). pose proof (room_left _ _ _ _ _ _ _ _ W1 R2 L) as A.
  destruct (read_spec _ _ _ _ _ _ _ W1 R2) as (W & _ & _ & C).
  assert (P : pending i = Active \/ n = str_len cs' /\ (b' <= n + 3)%nat).
  { clear C. unfold read in R2. destruct (Nat.ltb b' _) eqn:EB; [discriminate|]. apply Nat.ltb_ge in EB.
    assert (B4 : (4 <= b')%nat) by (unfold NORMALIZATION_BUFFER_SIZE, NORMALIZATION_BUFFER_LEN, MAX_UTF8_SIZE in EB; clear - EB; lia).
    destruct (drain b' b' j1) as [[d1 e1] i1] eqn:D1. destruct (drain_spec _ _ _ _ _ _ W1 D1) as (W2 & A1 & R' & (C1 & _) & E1). destruct (drain_room _ _ _ _ _ _ B4 D1) as (L1 & L2 & _ & L4).
    destruct e1; cbn [negb] in R2; [|right; injection R2 as <- <- <- _ _; split; [reflexivity|specialize (L4 eq_refl (le_n _)); lia]].
    destruct (E1 eq_refl) as (A2 & Q2 & NB & RD). specialize (L2 eq_refl). destruct (is_active (pending i1)) eqn:EP; cbn [negb] in R2; [|left; injection R2 as _ _ _ <- _; reflexivity].
    destruct (inner_read sc1) as [[[raw s']|] sc] eqn:EI; [|discriminate].
    destruct (absorb_input i1 raw s' W2 RD Q2 EP) as (WF2 & _ & PE & _).
    destruct (drain (b' - str_len d1) (b' - str_len d1) (finish (process_raw i1 raw) s')) as [[cs2 e2] i3] eqn:D2.
    destruct (drain_spec _ _ _ _ _ _ WF2 D2) as (_ & _ & _ & (P3 & _) & _). destruct (drain_room _ _ _ _ _ _ L2 D2) as (M1 & _ & _ & M4).
    destruct e2.
    - left. injection R2 as _ _ _ <- _. assert (P4 : pending i3 = Active) by (rewrite P3, PE; destruct (pending i1); try discriminate; reflexivity). destruct (is_active s'); exact P4.
    - right. injection R2 as <- <- <- _ _. specialize (M4 eq_refl (le_n _)). rewrite str_len_app in *. split; [reflexivity|lia]. }
  destruct P as [P|[-> P]]; [|lia].
  destruct (read_spec _ _ _ _ _ _ _ W R) as (_ & _ & _ & [(_ & K & _)|[(_ & _ & _ & AA & _ & _ & [(K & _)|(K & _)])|[(_ & K & _)|(raw & s' & nw & c2 & K & _)]]]).
  - rewrite nbs_136 in K. lia.
  - rewrite A in AA. symmetry in AA. apply app_eq_nil in AA. now destruct AA.
  - rewrite P in K. discriminate.
  - exact (inner_asked _ _ _ K).
  - exact (inner_asked _ _ _ K).
Qed.

(** * How many calls *)
Definition owed (i : input) : nat := if is_active (pending i) then 0 else 133.
Lemma read_cost : forall i script b r cs j script', wf i -> (136 <= b)%nat -> read i script b = (r, cs, j, script') ->
  (script' = script /\ (133 + owed j <= str_len cs + owed i)%nat) \/ (asked script script' /\ (owed j <= str_len cs + owed i)%nat).
Proof.
  intros i script b r cs j script' W B R. unfold read in R. destruct (Nat.ltb b _) eqn:EB; [apply Nat.ltb_lt in EB; rewrite nbs_136 in EB; lia|]. clear EB.
  destruct (drain b b i) as [[d1 e1] i1] eqn:D1. destruct (drain_spec _ _ _ _ _ _ W D1) as (W2 & A1 & R' & (C1 & _) & E1).
  destruct (drain_room b b i d1 e1 i1 ltac:(lia) D1) as (L1 & L2 & _ & L4).
  destruct e1; cbn [negb] in R.
  2:{ left. injection R as _ <- <- <-. split; [reflexivity|]. specialize (L4 eq_refl (le_n _)). unfold owed. rewrite C1. lia. }
  destruct (E1 eq_refl) as (A2 & Q2 & NB & RD). specialize (L2 eq_refl). destruct (is_active (pending i1)) eqn:EP; cbn [negb] in R.
  2:{ left. injection R as _ <- <- <-. split; [reflexivity|]. unfold owed. rewrite C1 in EP. rewrite EP. cbn [pending set_expect set_pending is_active]. lia. }
  right. destruct (inner_read script) as [[[raw s']|] sc] eqn:EI.
  2:{ injection R as _ <- <- <-. split; [exact (inner_asked _ _ _ EI)|]. unfold owed. rewrite C1. lia. }
  destruct (absorb_input i1 raw s' W2 RD Q2 EP) as (WF2 & _ & PE & _).
  destruct (drain (b - str_len d1) (b - str_len d1) (finish (process_raw i1 raw) s')) as [[cs2 e2] i3] eqn:D2.
  destruct (drain_spec _ _ _ _ _ _ WF2 D2) as (_ & _ & _ & (P3 & _) & _). destruct (drain_room _ _ _ _ _ _ L2 D2) as (M1 & _ & _ & M4).
  destruct e2.
  - injection R as _ <- <- <-. split; [exact (inner_asked _ _ _ EI)|]. assert (O : owed (if is_active s' then i3 else set_expect i3 true) = 0%nat).
    { unfold owed. assert (P4 : pending (if is_active s' then i3 else set_expect i3 true) = pending i1) by (destruct (is_active s'); cbn [pending set_expect]; congruence). now rewrite P4, EP. }
    rewrite O. lia.
  - injection R as _ <- <- <-. split; [exact (inner_asked _ _ _ EI)|]. specialize (M4 eq_refl (le_n _)). rewrite str_len_app in *.
    assert (O : (owed (set_pending i3 s') <= 133)%nat) by (clear; unfold owed; destruct (is_active (pending (set_pending i3 s'))); repeat constructor). lia.
Qed.
Lemma asked_open : forall script script', asked script script' -> still_open script -> script <> [] -> exists e, script = e :: script'.
Proof.
  intros script script' H O N. inversion H as [e t E1 E2|cs t E1 E2|E1 E2]; subst; [eauto|exfalso; apply (O cs); now left|congruence].
Qed.
Lemma reads_cost : forall sizes i script rs j rest, wf i -> legal_sizes sizes -> still_open script -> (length sizes <= length script)%nat -> reads i script sizes = (rs, j, rest) ->
  exists used, script = used ++ rest /\ (length used <= length sizes)%nat /\ (133 * (length sizes - length used) + owed j <= str_len (delivered rs) + owed i)%nat.
Proof.
  induction sizes as [|b sizes IH]; intros i script rs j rest W LS O LL H; cbn [reads] in H.
  - injection H as <- <- <-. exists []. cbn. repeat split; lia.
  - inversion LS as [|? ? B LS']; subst. destruct (read i script b) as [[[r cs] i1] sc1] eqn:ER. destruct (reads i1 sc1 sizes) as [[rs' j'] sc2] eqn:ERS. injection H as <- <- <-.
    destruct (read_spec _ _ _ _ _ _ _ W ER) as (W1 & _). cbn [delivered flat_map snd]. fold (delivered rs'). rewrite str_len_app.
    destruct (read_cost _ _ _ _ _ _ _ W B ER) as [[-> C]|[A C]].
    + destruct (IH _ _ _ _ _ W1 LS' O ltac:(cbn in LL; lia) ERS) as (used & E1 & E2 & E3). exists used. split; [exact E1|]. cbn [length]. split; lia.
    + assert (N : script <> []) by (intros ->; cbn in LL; lia). destruct (asked_open _ _ A O N) as [e ->].
      assert (O1 : still_open sc1) by (intros c K; apply (O c); now right).
      destruct (IH _ _ _ _ _ W1 LS' O1 ltac:(cbn in LL; lia) ERS) as (used & E1 & E2 & E3). exists (e :: used). split; [cbn; now rewrite <- E1|]. cbn [length]. split; lia.
Qed.
Theorem asks_often : forall nel lsps script sizes rs j rest, legal_sizes sizes -> still_open script -> (length sizes <= length script)%nat ->
  reads (new_input nel lsps) script sizes = (rs, j, rest) ->
  exists used, script = used ++ rest /\ (length used <= length sizes)%nat /\ (133 * (length sizes - length used) <= str_len (delivered rs))%nat.
Proof.
  intros nel lsps script sizes rs j rest LS O LL H. destruct (reads_cost _ _ _ _ _ _ (wf_new nel lsps) LS O LL H) as (used & E1 & E2 & E3).
  exists used. split; [exact E1|]. split; [exact E2|]. cbn in E3. lia.
Qed.
