(** copy_text_using_status whatever fails; reading on after abandoning. *)
From Coq Require Import NArith Arith List Bool Lia ZifyBool ZifyNat ZifyN.
From Verif Require Import Base Ucd Norm Chars TextUtils SpecText TextFacts PipelineFacts Utf8 Utf8Facts Input Output ReadFacts ReadInv ReadSession SpecRead ReadProps ReadMore
  SpecWrite WriteFacts WriteProps Copy CopyProps.
Import ListNotations.
Local Open Scope N_scope.
Arguments N.add : simpl never.
Arguments N.leb : simpl never.
Arguments N.ltb : simpl never.
Arguments N.eqb : simpl never.
Local Opaque pipeline.

(** * copy_text_using_status *)
(** A writer with nothing kept back that does not allow escapes. *)
Definition idle (cr : bool) (w : writer) : Prop := crlf w = cr /\ ansi w = false /\ buffer w = [].

Lemma as_sent_nil : forall cr, as_sent cr [] = [].
Proof. now destruct cr. Qed.
Lemma idle_buffer : forall cr w t r w', crlf w = cr -> ansi w = false -> buffer w = t -> write_buffer w = (r, w') ->
  (exists u, prefix_of u t /\ emitted (inner w') = emitted (inner w) ++ u) /\ (r = None -> idle cr w' /\ emitted (inner w') = emitted (inner w) ++ t).
Proof.
  intros cr [b cr' ex an st es k] t r w' H1 H2 H3 H. cbn in H1, H2, H3. subst. unfold write_buffer in H. cbn [expect buffer] in H.
  destruct (ex && _).
  - injection H as <- <-. cbn. split; [|discriminate]. exists []. split; [now exists t|now rewrite app_nil_r].
  - cbn in H. unfold sink_write in H. destruct k as [em o ab]. cbn [abandoned script emitted] in H. destruct ab.
    + injection H as <- <-. cbn. split; [|discriminate]. exists []. split; [now exists t|now rewrite app_nil_r].
    + destruct o as [|[|n] o]; injection H as <- <-; cbn.
      * split; [|intros _; split; [|reflexivity]; now split]. exists t. split; [exists []; now rewrite app_nil_r|reflexivity].
      * split; [|intros _; split; [|reflexivity]; now split]. exists t. split; [exists []; now rewrite app_nil_r|reflexivity].
      * split; [|discriminate]. exists (firstn n t). split; [exists (skipn n t); now rewrite firstn_skipn|reflexivity].
Qed.
Lemma idle_write : forall cr w s r w', idle cr w -> write_text w s = (r, w') ->
  (exists u, prefix_of u (as_sent cr s) /\ emitted (inner w') = emitted (inner w) ++ u) /\
  (r = None -> idle cr w' /\ emitted (inner w') = emitted (inner w) ++ as_sent cr s).
Proof.
  intros cr w s r w' (H1 & H2 & H3) H. destruct s as [|c s].
  - rewrite as_sent_nil. unfold write_text in H. cbn [split_lf] in H.
    assert (E : exists w1, crlf w1 = cr /\ ansi w1 = false /\ buffer w1 = [] /\ emitted (inner w1) = emitted (inner w) /\ write_buffer w1 = (r, w')).
    { destruct (crlf w) eqn:EC; eexists; (split; [|split; [|split; [|split; [|exact H]]]]); destruct w; cbn in *; subst; reflexivity. }
    destruct E as (w1 & E1 & E2 & E3 & E4 & E5). rewrite <- E4. now apply idle_buffer with (1 := E1).
  - rewrite write_text_eq in H by discriminate. rewrite H3, H1 in H. cbn [app] in H.
    set (w1 := set_buf _ _) in H. change (emitted (inner w)) with (emitted (inner w1)). apply idle_buffer; try reflexivity; assumption.
Qed.
Lemma idle_flush : forall cr w r w', idle cr w -> flush w = (r, w') -> idle cr w' /\ emitted (inner w') = emitted (inner w).
Proof.
  intros cr [b cr' ex an st es k] r w' (H1 & H2 & H3) H. cbn in H1, H2, H3. subst. unfold flush in H. cbn [wst] in H.
  destruct st as [g| |]; [|injection H as <- <-; split; [now split|reflexivity]|injection H as <- <-; split; [now split|reflexivity]].
  destruct g; try (injection H as <- <-; split; [now split|reflexivity]);
    unfold sink_call, sink_write in H; cbn [inner] in H; destruct k as [em o ab]; cbn [abandoned script emitted] in H; destruct ab; try destruct o as [|[|n] o];
    injection H as <- <-; (split; [now split|]); cbn; rewrite ?firstn_nil; auto using app_nil_r.
Qed.

Lemma prefix_refl : forall a, prefix_of a a.
Proof. intro a. exists []. now rewrite app_nil_r. Qed.
Lemma prefix_app : forall a b c, prefix_of b c -> prefix_of (a ++ b) (a ++ c).
Proof. intros a b c (d & ->). exists d. now rewrite app_assoc. Qed.
Lemma prefix_more : forall a b c, prefix_of a b -> prefix_of a (b ++ c).
Proof. intros a b c (d & ->). exists (d ++ c). now rewrite app_assoc. Qed.

Lemma status_any_from : forall fuel i sc w blen written res j rest w' cr, wf i -> idle cr w ->
  copy_status fuel i sc w blen written = Some (res, j, rest, w') ->
  exists k rs, reads i sc (repeat blen k) = (rs, j, rest) /\ prefix_of (emitted (inner w')) (emitted (inner w) ++ as_sent cr (received rs)) /\
    match res with
    | CopyOk n => reached_end rs /\ (n = written + str_len (received rs))%nat /\ emitted (inner w') = emitted (inner w) ++ as_sent cr (received rs)
    | CopyRead => emitted (inner w') = emitted (inner w) ++ as_sent cr (received rs)
    | CopyWrite _ => True
    end.
Proof.
  induction fuel as [|f IH]; intros i sc w blen written res j rest w' cr W Q H; cbn [copy_status] in H; [discriminate|].
  destruct (read i sc blen) as [[[r cs] i1] sc1] eqn:ER. pose proof (read_wf _ _ _ _ _ _ _ W ER) as W1.
  assert (R1 : reads i sc (repeat blen 1) = ([(r, cs)], i1, sc1)) by (cbn [repeat reads]; now rewrite ER).
  destruct r as [n s| |].
  2,3: injection H as <- <- <- <-; eexists 1%nat, _; (split; [exact R1|]); cbn [received flat_map fst snd]; rewrite as_sent_nil, !app_nil_r; split; [apply prefix_refl|reflexivity].
  pose proof (read_count _ _ _ _ _ _ _ _ W ER) as EN.
  destruct (write_text w cs) as [rw w1] eqn:EW. destruct (idle_write _ _ _ _ _ Q EW) as ((u & U1 & U2) & OKW).
  destruct rw as [e|].
  { injection H as <- <- <- <-. eexists 1%nat, _. split; [exact R1|]. cbn [received flat_map fst snd]. rewrite app_nil_r, U2. split; [now apply prefix_app|exact I]. }
  destruct (OKW eq_refl) as [Q1 E1].
  assert (K : forall w2, idle cr w2 -> emitted (inner w2) = emitted (inner w1) -> copy_status f i1 sc1 w2 blen (written + n) = Some (res, j, rest, w') ->
    exists k rs, reads i sc (repeat blen k) = (rs, j, rest) /\ prefix_of (emitted (inner w')) (emitted (inner w) ++ as_sent cr (received rs)) /\
    match res with
    | CopyOk n => reached_end rs /\ (n = written + str_len (received rs))%nat /\ emitted (inner w') = emitted (inner w) ++ as_sent cr (received rs)
    | CopyRead => emitted (inner w') = emitted (inner w) ++ as_sent cr (received rs)
    | CopyWrite _ => True
    end).
  { intros w2 Q2 E2 H2. destruct (IH _ _ _ _ _ _ _ _ _ _ W1 Q2 H2) as (k & rs & R & P & M).
    exists (S k), ((ROk n s, cs) :: rs). cbn [repeat reads]. rewrite ER, R. split; [reflexivity|].
    cbn [received flat_map fst snd]. fold (received rs). rewrite E2, E1 in P. rewrite as_sent_app, app_assoc. split; [exact P|].
    destruct res as [m| |e]; [|now rewrite E2, E1 in M|exact I]. destruct M as (M1 & M2 & M3). rewrite E2, E1 in M3.
    split; [destruct M1 as (a & b & c & ->); now exists ((ROk n s, cs) :: a), b, c|]. split; [rewrite str_len_app; lia|exact M3]. }
  destruct s.
  - eapply K; [exact Q1|reflexivity|exact H].
  - destruct (flush w1) as [[e|] w2] eqn:EF; destruct (idle_flush _ _ _ _ Q1 EF) as [Q2 E2].
    + injection H as <- <- <- <-. eexists 1%nat, _. split; [exact R1|]. cbn [received flat_map fst snd]. rewrite app_nil_r, E2, E1. split; [apply prefix_refl|exact I].
    + eapply K; [exact Q2|exact E2|exact H].
  - injection H as <- <- <- <-. eexists 1%nat, _. split; [exact R1|]. cbn [received flat_map fst snd]. rewrite app_nil_r, E1. split; [apply prefix_refl|].
    split; [now exists [], n, cs|]. split; [now rewrite EN|reflexivity].
Qed.
Theorem copy_status_any : forall nel lsps sc blen cr p o fuel res j rest w,
  copy_status fuel (new_input nel lsps) sc (new_writer cr false (mksink p o false)) blen 0 = Some (res, j, rest, w) ->
  exists k rs, reads (new_input nel lsps) sc (repeat blen k) = (rs, j, rest) /\ prefix_of (emitted (inner w)) (p ++ as_sent cr (received rs)) /\
    match res with
    | CopyOk n => reached_end rs /\ n = str_len (received rs) /\ emitted (inner w) = p ++ as_sent cr (received rs)
    | CopyRead => emitted (inner w) = p ++ as_sent cr (received rs)
    | CopyWrite _ => True
    end.
Proof.
  intros nel lsps sc blen cr p o fuel res j rest w H. refine (status_any_from _ _ _ _ _ _ _ _ _ _ cr (wf_new nel lsps) _ H). now split.
Qed.

(** * Reading on after abandoning *)
Lemma room_pending : forall i script blen n s cs j script', wf i -> read i script blen = (ROk n s, cs, j, script') -> (n + 4 <= blen)%nat -> pending j = Active.
Proof.
  intros i script blen n s cs j script' W H L. unfold read in H. destruct (Nat.ltb blen NORMALIZATION_BUFFER_SIZE) eqn:EB; [discriminate|]. apply Nat.ltb_ge in EB.
  assert (B4 : (4 <= blen)%nat) by (unfold NORMALIZATION_BUFFER_SIZE, NORMALIZATION_BUFFER_LEN, MAX_UTF8_SIZE in EB; clear - EB; lia).
  destruct (drain blen blen i) as [[cs1 e1] i1] eqn:D1.
  destruct (drain_spec _ _ _ _ _ _ W D1) as (W1 & A1 & R1 & (C1 & C2 & C3 & C4 & C5 & C6) & E1).
  destruct (drain_room _ _ _ _ _ _ B4 D1) as (L1 & L2 & _ & L4).
  destruct e1; cbn [negb] in H.
  - destruct (E1 eq_refl) as (A2 & Q2 & NB & RD). specialize (L2 eq_refl).
    destruct (is_active (pending i1)) eqn:EP; cbn [negb] in H.
    + destruct (inner_read script) as [[[raw s']|] sc] eqn:EI; [|discriminate].
      destruct (absorb_input i1 raw s' W1 RD Q2 EP) as (WF2 & AB).
      destruct (drain (blen - str_len cs1) (blen - str_len cs1) (finish (process_raw i1 raw) s')) as [[cs2 e2] i3] eqn:D2.
      destruct (drain_spec _ _ _ _ _ _ WF2 D2) as (_ & _ & _ & SC & E3). destruct (drain_room _ _ _ _ _ _ L2 D2) as (M1 & _ & _ & M4).
      destruct e2.
      * injection H as _ _ _ <- _. destruct SC as (P3 & _). destruct AB as (_ & P2 & _).
        assert (E : pending i3 = Active) by (rewrite P3, P2; destruct (pending i1); [reflexivity|discriminate|discriminate]). destruct (is_active s'); exact E.
      * injection H as <- _ _ _ _. specialize (M4 eq_refl (le_n _)). rewrite str_len_app in L. clear - L M4. lia.
    + now injection H as _ _ _ <- _.
  - injection H as <- _ _ _ _. specialize (L4 eq_refl (le_n _)). clear - L L4. lia.
Qed.
Lemma drain_nothing : forall f i, wf i -> avail i = [] -> drain (S f) (S f) i = ([], true, i).
Proof.
  intros f i W A. cbn [drain]. pose proof (queue_next_spec i W) as Q. destruct (queue_next i) as [[c i']|]; [|reflexivity].
  destruct Q as (_ & E & _). rewrite A in E. discriminate.
Qed.
(** Abandoned after a read that left room, a reader delivers nothing more at the
    end of its stream: not even the line end that is otherwise supplied. *)
Theorem abandoned_ends : forall nel lsps script sizes rs i sc b n s cs j sc' k blen,
  reads (new_input nel lsps) script sizes = (rs, i, sc) -> read i sc b = (ROk n s, cs, j, sc') -> (n + 4 <= b)%nat ->
  abandon_input j = Some k -> (136 <= blen)%nat -> exists k', read k [] blen = (ROk 0 End, [], k', []).
Proof.
  intros nel lsps script sizes rs i sc b n s cs j sc' k blen HS HR L HA B.
  destruct (reads_spec _ _ _ _ _ _ (wf_new nel lsps) HS) as (W & _).
  pose proof (room_left _ _ _ _ _ _ _ _ W HR L) as A. pose proof (room_pending _ _ _ _ _ _ _ _ W HR L) as P. pose proof (read_wf _ _ _ _ _ _ _ W HR) as W1.
  unfold abandon_input in HA. destruct (queue j) eqn:EQ; [|discriminate]. injection HA as <-.
  set (k := set_st j (Ground true)).
  assert (WK : wf k) by exact W1. assert (AK : avail k = []) by exact A.
  assert (F : finish (process_raw k []) End = set_at_start k false).
  { unfold process_raw. replace (if at_start k then [] else []) with (@nil N) by (now destruct (at_start k)). cbn [fold_left].
    unfold finish. cbn. now rewrite EQ. }
  destruct blen as [|f]; [lia|]. unfold read.
  replace (Nat.ltb (S f) NORMALIZATION_BUFFER_SIZE) with false by (symmetry; apply Nat.ltb_ge; exact B).
  rewrite (drain_nothing f k WK AK). cbn [negb]. change (pending k) with (pending j). rewrite P. cbn [is_active negb inner_read]. rewrite F.
  change (S f - str_len [])%nat with (S f). rewrite (drain_nothing f (set_at_start k false)); [|exact WK|exact AK]. cbn. eexists. reflexivity.
Qed.
