(** What a reader does, as an abstract machine: a pure translator feeding a
    residue, from which complete blocks are converted and delivered. *)
From Coq Require Import NArith Arith List Bool Lia ZifyBool ZifyNat ZifyN.
From Verif Require Import Base Ucd Norm Chars TextTables TextUtils Utf8 Input UcdFacts NormFacts CharFacts SpecText TextFacts PipelineFacts IsoFacts Utf8Facts.
Import ListNotations.
Local Open Scope N_scope.
Arguments N.add : simpl never.
Arguments N.leb : simpl never.
Arguments N.ltb : simpl never.
Arguments N.eqb : simpl never.

(** * The translator *)
Definition tstate : Type := bool * state.

Definition stub (nel lsps : bool) (x : tstate) : input := mkinput [] [] 0 Active (fst x) false nel lsps (snd x).
Definition tstep (nel lsps : bool) (x : tstate) (c : N) : list N * tstate :=
  let i := step (stub nel lsps x) c in (queue i, (expect_starter i, st i)).
Fixpoint trans (nel lsps : bool) (x : tstate) (cs : list N) : list N * tstate :=
  match cs with
  | [] => ([], x)
  | c :: t => let '(o, x') := tstep nel lsps x c in
              let '(o', x'') := trans nel lsps x' t in (o ++ o', x'')
  end.

Definition ts_of (i : input) : tstate := (expect_starter i, st i).
(** put the translator's results back *)
Definition put (i : input) (r : list N * tstate) : input :=
  mkinput (queue i ++ fst r) (iter i) (quick i) (pending i) (fst (snd r)) (at_start i) (nel_compat i) (lsps_compat i) (snd (snd r)).


Lemma step_frame : forall i c, step i c = put i (tstep (nel_compat i) (lsps_compat i) (ts_of i) c).
Proof.
  intros [q it n p e a nl ls s] c. unfold tstep, ts_of, stub, put, step, step_ground, ground_char, push_set, set_st. cbn.
  generalize (replace (if nl && (c =? NEL) || ls && ((c =? LS) || (c =? PS)) then LF else c)). intro r.
  destruct s; cbn;
  repeat match goal with |- context [if ?b then _ else _] => match type of b with bool =>
    lazymatch b with context [if _ then _ else _] => fail | _ => destruct b end end end;
  cbn; rewrite ?app_nil_r, <- ?app_assoc; reflexivity.
Qed.

Lemma fold_step : forall raw i, fold_left step raw i = put i (trans (nel_compat i) (lsps_compat i) (ts_of i) raw).
Proof.
  induction raw as [|c raw IH]; intro i; cbn [fold_left trans].
  - destruct i. unfold put, ts_of. cbn. now rewrite app_nil_r.
  - rewrite IH, step_frame. destruct (tstep (nel_compat i) (lsps_compat i) (ts_of i) c) as [o [e s]].
    unfold put, ts_of. cbn. destruct (trans (nel_compat i) (lsps_compat i) (e, s) raw) as [o' [e' s']]. cbn.
    now rewrite app_assoc.
Qed.

Lemma trans_app : forall nel lsps a b x, trans nel lsps x (a ++ b) =
  let '(o, x') := trans nel lsps x a in let '(o', x'') := trans nel lsps x' b in (o ++ o', x'').
Proof.
  induction a as [|c a IH]; intros b x; cbn [app trans].
  - destruct (trans nel lsps x b); reflexivity.
  - destruct (tstep nel lsps x c) as [o x']. rewrite IH. destruct (trans nel lsps x' a) as [o1 x1].
    destruct (trans nel lsps x1 b) as [o2 x2]. now rewrite app_assoc.
Qed.

(** the text of a chunk after removing a leading BOM *)
Definition body (start : bool) (raw : list N) : list N :=
  if start then match raw with c :: t => if c =? BOM then t else raw | [] => raw end else raw.

Lemma process_frame : forall i raw, process_raw i raw =
  put (set_at_start i false) (trans (nel_compat i) (lsps_compat i) (ts_of i) (body (at_start i) raw)).
Proof. intros i raw. unfold process_raw. rewrite fold_step. destruct i. reflexivity. Qed.

(** what is pushed when the inner stream reports a status; [l] is the last character before *)
Definition fin (s : status) (l : option N) (x : tstate) : list N * tstate :=
  if is_active s then ([], x)
  else
    let '(o1, x1) := match snd x with
                     | Ground _ => ([], x)
                     | Cr => ([LF], (false, Ground true))
                     | Ff => ([SP], (false, Ground false))
                     | Esc | CsiStart | Csi | Osc | Linux => ([], (fst x, Ground false))
                     end in
    let o2 := match (match last_opt o1 with Some y => Some y | None => l end) with
              | Some y => if is_basic_text_end y then [] else [CGJ]
              | None => []
              end in
    if is_end s then
      if is_ground_nl (snd x1) then (o1 ++ o2, x1) else (o1 ++ o2 ++ [LF], (false, Ground true))
    else (o1 ++ o2, x1).

Lemma last_opt_app : forall (a b : list N), last_opt (a ++ b) = match last_opt b with Some y => Some y | None => last_opt a end.
Proof.
  intros a b. destruct b as [|y b] using rev_ind; [now rewrite app_nil_r|]. rewrite app_assoc, !last_opt_snoc. reflexivity.
Qed.

Lemma finish_frame : forall i s, finish i s = put i (fin s (last_opt (queue i)) (ts_of i)).
Proof.
  intros [q it n p e a nl ls t] s. unfold finish, fin, put, ts_of, push_set, set_st, set_q. cbn.
  destruct s; cbn; [now rewrite app_nil_r| |];
  (destruct t as [b| | | | | | |]; cbn; rewrite ?last_opt_snoc; cbn;
   [destruct (last_opt q) as [y|]; cbn; [destruct (is_basic_text_end y); cbn|]| | | | | | |];
   try (destruct (last_opt q) as [y|]; cbn; [destruct (is_basic_text_end y); cbn|]);
   try (destruct b; cbn);
   try change (is_basic_text_end LF) with true; try change (is_basic_text_end SP) with true;
   cbn; rewrite ?app_nil_r, <- ?app_assoc; reflexivity).
Qed.

(** * Blocks *)
Definition complete (q : list N) : list N := match last_boundary q with Some n => firstn n q | None => [] end.
Definition incomplete (q : list N) : list N := match last_boundary q with Some n => skipn n q | None => q end.
Definition no_boundary (q : list N) : Prop := Forall (fun c => is_boundary c = false) q.

Lemma is_boundary_spec : forall c, is_boundary c = true <-> boundary c.
Proof. intro c. unfold is_boundary, boundary. lia. Qed.

Lemma last_boundary_none : forall q, last_boundary q = None <-> no_boundary q.
Proof.
  induction q as [|c q IH]; cbn; [split; [constructor|reflexivity]|].
  unfold no_boundary in *. rewrite Forall_cons_iff, <- IH. destruct (last_boundary q) as [n|]; [intuition discriminate|].
  destruct (is_boundary c); intuition congruence.
Qed.
Lemma last_boundary_some : forall q n, last_boundary q = Some n ->
  exists a x b, q = (a ++ [x]) ++ b /\ n = length (a ++ [x]) /\ boundary x /\ no_boundary b.
Proof.
  induction q as [|c q IH]; intros n H; cbn in H; [discriminate|].
  destruct (last_boundary q) as [m|] eqn:E.
  - injection H as <-. destruct (IH _ eq_refl) as (a & x & b & -> & -> & HX & HB). exists (c :: a), x, b. auto.
  - destruct (is_boundary c) eqn:EB; [|discriminate]. injection H as <-. exists [], c, q. repeat split.
    + now apply is_boundary_spec.
    + now apply last_boundary_none.
Qed.
Lemma last_boundary_intro : forall a x b, boundary x -> no_boundary b -> last_boundary ((a ++ [x]) ++ b) = Some (length (a ++ [x])).
Proof.
  induction a as [|c a IH]; intros x b HX HB.
  - cbn. apply last_boundary_none in HB. rewrite HB. apply is_boundary_spec in HX. now rewrite HX.
  - cbn. rewrite IH by assumption. reflexivity.
Qed.

Lemma blocks_split : forall q, q = complete q ++ incomplete q.
Proof. intro q. unfold complete, incomplete. destruct (last_boundary q); [symmetry; apply firstn_skipn|reflexivity]. Qed.
Lemma incomplete_nb : forall q, no_boundary (incomplete q).
Proof.
  intro q. unfold incomplete. destruct (last_boundary q) eqn:E; [|now apply last_boundary_none].
  destruct (last_boundary_some _ _ E) as (a & x & b & -> & -> & _ & HB). now rewrite skipn_app, skipn_all, Nat.sub_diag.
Qed.
Lemma complete_cases : forall q, (complete q = [] /\ no_boundary q) \/ exists a x, complete q = a ++ [x] /\ boundary x.
Proof.
  intro q. unfold complete. destruct (last_boundary q) eqn:E.
  - right. destruct (last_boundary_some _ _ E) as (a & x & b & -> & -> & HX & _). exists a, x. split; [|exact HX].
    rewrite firstn_app, Nat.sub_diag, firstn_all. cbn. now rewrite app_nil_r.
  - left. split; [reflexivity|now apply last_boundary_none].
Qed.
Lemma complete_nb : forall q, no_boundary q -> complete q = [] /\ incomplete q = q.
Proof. intros q H. apply last_boundary_none in H. unfold complete, incomplete. now rewrite H. Qed.
Lemma complete_snoc : forall a x, boundary x -> complete (a ++ [x]) = a ++ [x] /\ incomplete (a ++ [x]) = [].
Proof.
  intros a x H. pose proof (last_boundary_intro a x [] H (Forall_nil _)) as E. rewrite app_nil_r in E. unfold complete, incomplete. rewrite E.
  now rewrite firstn_all, skipn_all.
Qed.

(** * Abstract view of a reader *)
Definition wf (i : input) : Prop := (quick i <= length (queue i))%nat /\ (quick i = 0%nat \/ iter i = []).
Definition ready (i : input) : list N := iter i ++ firstn (quick i) (queue i).
Definition rest (i : input) : list N := skipn (quick i) (queue i).
(** what can be delivered without reading more, and what must wait *)
Definition avail (i : input) : list N := ready i ++ pipeline (complete (rest i)).
Definition residue (i : input) : list N := incomplete (rest i).

Lemma wf_new : forall nel lsps, wf (new_input nel lsps).
Proof. intros. split; cbn; auto. Qed.

Definition same_ctl (i j : input) : Prop :=
  pending j = pending i /\ expect_starter j = expect_starter i /\ at_start j = at_start i /\
  nel_compat j = nel_compat i /\ lsps_compat j = lsps_compat i /\ st j = st i.
Lemma same_ctl_refl : forall i, same_ctl i i. Proof. intro i. repeat split. Qed.
Lemma same_ctl_trans : forall i j k, same_ctl i j -> same_ctl j k -> same_ctl i k.
Proof. unfold same_ctl. intros i j k H1 H2. intuition congruence. Qed.

Lemma queue_next_spec : forall i, wf i ->
  match queue_next i with
  | None => avail i = [] /\ queue i = residue i /\ no_boundary (queue i) /\ ready i = []
  | Some (c, j) => wf j /\ avail i = c :: avail j /\ residue j = residue i /\ same_ctl i j
  end.
Proof.
  intros i [W1 W2]. unfold queue_next.
  destruct (quick i) as [|n] eqn:EQ.
  - assert (Hrest : rest i = queue i) by (unfold rest; now rewrite EQ).
    destruct (iter i) as [|c it] eqn:EI.
    + assert (Hready : ready i = []) by (unfold ready; rewrite EQ, EI; reflexivity).
      destruct (last_boundary (queue i)) as [n|] eqn:EB.
      * assert (Hc : complete (queue i) = firstn n (queue i)) by (unfold complete; now rewrite EB).
        assert (Hin : incomplete (queue i) = skipn n (queue i)) by (unfold incomplete; now rewrite EB).
        assert (NB := incomplete_nb (queue i)).
        destruct (last_boundary_some _ _ EB) as (a & x & b & Hq & Hn & HX & HB).
        unfold avail at 1. rewrite Hready, Hrest, Hc. cbn [app].
        destruct (_ && forallb is_public_assigned _) eqn:EP.
        -- apply andb_prop in EP. destruct EP as [EP1 EP2].
           assert (PF : pipeline (firstn n (queue i)) = firstn n (queue i)).
           { apply pipeline_quick; [|exact EP2]. destruct (is_nfc_stream_safe_quick (firstn n (queue i))); congruence. }
           rewrite PF. destruct (queue i) as [|c q] eqn:EQU; [destruct a; discriminate Hq|].
           assert (n <> 0%nat) by (subst n; rewrite app_length; cbn; lia). destruct n as [|n]; [congruence|].
           cbn [Nat.sub]. rewrite Nat.sub_0_r.
           assert (Hres : rest (set_q i q [] n) = incomplete (c :: q)) by (rewrite Hin; reflexivity).
           split; [split; cbn; [|now right]|split; [|split; [|repeat split]]].
           ++ assert (S n <= length (c :: q))%nat by (rewrite Hq, app_length; lia). cbn in *. lia.
           ++ unfold avail, ready. rewrite Hres. destruct (complete_nb _ NB) as [-> _]. rewrite pipeline_nil. cbn. now rewrite !app_nil_r.
           ++ unfold residue. rewrite Hres, Hrest, ?EQU. destruct (complete_nb _ NB) as [_ ->]. reflexivity.
        -- destruct (pipeline (firstn n (queue i))) as [|c it] eqn:EPL.
           ++ exfalso. revert EPL. apply pipeline_nonnil. rewrite Hq, Hn, firstn_app, Nat.sub_diag, firstn_all.
              destruct a; discriminate.
           ++ assert (Hres : rest (set_q i (skipn n (queue i)) it 0) = incomplete (queue i)) by (rewrite Hin; reflexivity).
              split; [split; cbn; [lia|now left]|split; [|split; [|repeat split]]].
              ** unfold avail, ready. rewrite Hres. destruct (complete_nb _ NB) as [-> _]. rewrite pipeline_nil. cbn. now rewrite !app_nil_r.
              ** unfold residue. rewrite Hres, Hrest. destruct (complete_nb _ NB) as [_ ->]. reflexivity.
      * unfold avail, residue. rewrite Hready, Hrest. unfold complete, incomplete. rewrite EB.
        split; [apply pipeline_nil|]. split; [reflexivity|]. split; [now apply last_boundary_none|reflexivity].
    + split; [split; cbn; [lia|now left]|split; [|split; [|repeat split]]].
      * unfold avail, ready, rest. cbn [set_q iter quick queue]. rewrite EI, EQ. cbn. now rewrite !app_nil_r.
      * unfold residue, rest. cbn. rewrite EQ. reflexivity.
  - destruct W2 as [W2|W2]; [discriminate|]. destruct (queue i) as [|c q] eqn:EQU; [cbn in W1; lia|].
    split; [split; cbn; [cbn in W1; lia|now right]|split; [|split; [|repeat split]]].
    + unfold avail, ready, rest. cbn [set_q iter quick queue]. rewrite W2, EQ, EQU. reflexivity.
    + unfold residue, rest. cbn. rewrite EQ, EQU. reflexivity.
Qed.

(** * Moving characters to the caller *)
Lemma drain_spec : forall f room i cs e j, wf i -> drain f room i = (cs, e, j) ->
  wf j /\ avail i = cs ++ avail j /\ residue j = residue i /\ same_ctl i j /\
  (e = true -> avail j = [] /\ queue j = residue j /\ no_boundary (queue j) /\ ready j = []).
Proof.
  induction f as [|f IH]; intros room i cs e j W H; cbn [drain] in H.
  - injection H as <- <- <-. repeat split; try discriminate; try apply W; try apply same_ctl_refl.
  - pose proof (queue_next_spec i W) as Q. destruct (queue_next i) as [[c i']|].
    + destruct Q as (W' & A & R & S). destruct (Nat.ltb _ _).
      * injection H as <- <- <-. repeat split; auto; try discriminate; try apply W'; try apply S.
      * destruct (drain f (room - utf8_len c) i') as [[cs' e'] j'] eqn:E. injection H as <- <- <-.
        destruct (IH _ _ _ _ _ W' E) as (W2 & A2 & R2 & S2 & E2). split; [exact W2|]. split; [rewrite A, A2; reflexivity|].
        split; [congruence|]. split; [eapply same_ctl_trans; eauto|exact E2].
    + injection H as <- <- <-. destruct Q as (A & B & C & D). repeat split; auto; try apply W; apply same_ctl_refl.
Qed.

(** bytes written fit, and at least four remain when the queue ran empty *)
Lemma drain_room : forall f room i cs e j, (4 <= room)%nat -> drain f room i = (cs, e, j) ->
  (str_len cs <= room)%nat /\ (e = true -> (4 <= room - str_len cs)%nat) /\ (e = false -> f <> 0%nat -> cs <> []) /\
  (e = false -> (room <= f)%nat -> (room - str_len cs < 4)%nat).
Proof.
  induction f as [|f IH]; intros room i cs e j R H; cbn [drain] in H.
  - injection H as <- <- <-. cbn. repeat split; try lia; try discriminate; congruence.
  - destruct (queue_next i) as [[c i']|].
    + pose proof (utf8_len_pos c). unfold MAX_UTF8_SIZE in H. destruct (Nat.ltb _ _) eqn:E.
      * injection H as <- <- <-. cbn. apply Nat.ltb_lt in E. repeat split; try lia; discriminate.
      * apply Nat.ltb_ge in E. destruct (drain f (room - utf8_len c) i') as [[cs' e'] j'] eqn:ED. injection H as <- <- <-.
        destruct (IH _ _ _ _ _ E ED) as (A & B & C & D). cbn. repeat split; try lia; try discriminate.
        all: intros -> ?; specialize (D eq_refl); lia.
    + injection H as <- <- <-. cbn. repeat split; try lia; discriminate.
Qed.

(** * The abstract reader *)
Record abs := mkabs { a_res : list N; a_ts : tstate; a_start : bool }.

Definition abs_of (i : input) : abs :=
  mkabs (residue i) (if is_active (pending i) then expect_starter i else true, st i) (at_start i).

(** all text pushed for one chunk *)
Definition pushed (nel lsps : bool) (a : abs) (raw : list N) (s : status) : list N * tstate :=
  let '(o, x) := trans nel lsps (a_ts a) (body (a_start a) raw) in
  let '(o2, x2) := fin s (last_opt (a_res a ++ o)) x in (o ++ o2, x2).
(** the text that becomes available, and the new state *)
Definition absorb (nel lsps : bool) (a : abs) (raw : list N) (s : status) : list N * abs :=
  let '(o, x) := pushed nel lsps a raw s in
  (pipeline (complete (a_res a ++ o)),
   mkabs (incomplete (a_res a ++ o)) (if is_active s then fst x else true, snd x) false).

Lemma absorb_input : forall i raw s, wf i -> ready i = [] -> queue i = residue i -> is_active (pending i) = true ->
  let j := finish (process_raw i raw) s in
  wf j /\ (avail j, mkabs (residue j) (if is_active s then expect_starter j else true, st j) (at_start j))
    = absorb (nel_compat i) (lsps_compat i) (abs_of i) raw s /\
  pending j = pending i /\ nel_compat j = nel_compat i /\ lsps_compat j = lsps_compat i.
Proof.
  intros i raw s [W1 W2] HR HQ HP j. subst j. rewrite finish_frame, process_frame.
  assert (QZ : quick i = 0%nat).
  { unfold ready in HR. apply app_eq_nil in HR. destruct HR as [_ HR]. destruct (quick i); [reflexivity|].
    destruct (queue i); [cbn in W1; lia|discriminate]. }
  assert (IT : iter i = []) by (unfold ready in HR; apply app_eq_nil in HR; tauto).
  unfold absorb, pushed, abs_of. cbn [a_res a_ts a_start]. rewrite <- HQ. rewrite HP.
  destruct i as [q it n p e a nl ls t]. cbn in QZ, IT, HP, HQ |- *. subst n it.
  unfold ts_of, put. cbn.
  destruct (trans nl ls (e, t) (body a raw)) as [o [e1 t1]]. cbn.
  destruct (fin s (last_opt (q ++ o)) (e1, t1)) as [o2 [e2 t2]]. cbn.
  split; [split; [cbn; lia|now left]|]. split; [|repeat split].
  unfold avail, residue, ready, rest. cbn [quick queue iter firstn skipn app]. now rewrite <- app_assoc.
Qed.

Lemma wf_ctl : forall i p e, wf i -> wf (set_pending i p) /\ wf (set_expect i e).
Proof. intros i p e H. split; exact H. Qed.

(** What one call does. *)
Inductive call_kind := KInvalid | KQueued | KPending | KFail | KRead (raw : list N) (s : status).

Theorem read_spec : forall i script blen r cs j script', wf i -> read i script blen = (r, cs, j, script') ->
  wf j /\ nel_compat j = nel_compat i /\ lsps_compat j = lsps_compat i /\
  ( (* buffer too small *)
    (r = RInvalid /\ (blen < NORMALIZATION_BUFFER_SIZE)%nat /\ cs = [] /\ j = i /\ script' = script)
  \/ (* served from the queue, or a pending status dropped *)
    (r = ROk (str_len cs) Active /\ script' = script /\ (NORMALIZATION_BUFFER_SIZE <= blen)%nat /\
     avail i = cs ++ avail j /\ abs_of j = abs_of i /\ (str_len cs <= blen)%nat /\
     ((cs <> [] /\ pending j = pending i) \/ (is_active (pending i) = false /\ pending j = Active /\ avail j = [])))
  \/ (* the underlying stream failed *)
    (r = RErr /\ inner_read script = (None, script') /\ cs = avail i /\ avail j = [] /\ abs_of j = abs_of i /\
     is_active (pending i) = true /\ pending j = pending i /\ (str_len cs <= blen)%nat)
  \/ (* the underlying stream was read *)
    (exists raw s new cs2, inner_read script = (Some (raw, s), script') /\ (NORMALIZATION_BUFFER_SIZE <= blen)%nat /\
     is_active (pending i) = true /\
     absorb (nel_compat i) (lsps_compat i) (abs_of i) raw s = (new, abs_of j) /\
     cs = avail i ++ cs2 /\ new = cs2 ++ avail j /\ (str_len cs <= blen)%nat /\
     ((r = ROk (str_len cs) s /\ avail j = [] /\ pending j = Active) \/
      (r = ROk (str_len cs) Active /\ pending j = s /\ cs2 <> [])))).
Proof.
  intros i script blen r cs j script' W H. unfold read in H.
  destruct (Nat.ltb blen NORMALIZATION_BUFFER_SIZE) eqn:EB.
  { injection H as <- <- <- <-. apply Nat.ltb_lt in EB. split; [exact W|]. split; [reflexivity|]. split; [reflexivity|]. left. auto. }
  apply Nat.ltb_ge in EB. assert (B4 : (4 <= blen)%nat) by (unfold NORMALIZATION_BUFFER_SIZE, MAX_UTF8_SIZE, NORMALIZATION_BUFFER_LEN in EB; lia).
  destruct (drain blen blen i) as [[cs1 e1] i1] eqn:D1.
  destruct (drain_spec _ _ _ _ _ _ W D1) as (W1 & A1 & R1 & (C1 & C2 & C3 & C4 & C5 & C6) & E1).
  destruct (drain_room _ _ _ _ _ _ B4 D1) as (L1 & L2 & L3 & _).
  assert (AB : abs_of i1 = abs_of i) by (unfold abs_of; now rewrite R1, C1, C2, C3, C6).
  destruct e1; cbn [negb] in H.
  - destruct (E1 eq_refl) as (A2 & Q2 & NB & RD). specialize (L2 eq_refl).
    destruct (is_active (pending i1)) eqn:EP; cbn [negb] in H.
    + destruct (inner_read script) as [[[raw s]|] sc] eqn:EI.
      * destruct (absorb_input i1 raw s W1 RD Q2 EP) as (WF2 & AS & P2 & N2 & S2).
        set (i2 := finish (process_raw i1 raw) s) in *. clearbody i2.
        destruct (drain (blen - str_len cs1) (blen - str_len cs1) i2) as [[cs2 e2] i3] eqn:D2.
        destruct (drain_spec _ _ _ _ _ _ WF2 D2) as (W3 & A3 & R3 & (G1 & G2 & G3 & G4 & G5 & G6) & E3).
        destruct (drain_room _ _ _ _ _ _ L2 D2) as (M1 & _ & M3 & _).
        assert (LEN : (str_len (cs1 ++ cs2) <= blen)%nat) by (rewrite str_len_app; clear - L1 L2 M1; lia).
        assert (AV : avail i = cs1) by (now rewrite A1, A2, app_nil_r).
        destruct e2; injection H as <- <- <- <-.
        -- destruct (E3 eq_refl) as (A4 & _). split; [destruct (is_active s); [exact W3|exact W3]|].
           split; [destruct (is_active s); cbn; congruence|]. split; [destruct (is_active s); cbn; congruence|].
           right. right. right. exists raw, s, (avail i2), cs2.
           split; [reflexivity|]. split; [exact EB|]. split; [congruence|].
           split.
           { rewrite <- C4, <- C5, <- AB, <- AS. f_equal. unfold abs_of.
             assert (PA : is_active (pending i3) = true) by (rewrite G1, P2; exact EP).
             destruct (is_active s); cbn [set_expect pending residue st at_start expect_starter]; rewrite ?PA.
             - now rewrite R3, G2, G3, G6.
             - change (residue (set_expect i3 true)) with (residue i3). rewrite R3, G3, G6. reflexivity. }
           split; [now rewrite AV|]. split; [rewrite A3; f_equal; destruct (is_active s); reflexivity|]. split; [exact LEN|].
           left. split; [reflexivity|]. split; [destruct (is_active s); exact A4|].
           assert (PA : pending i3 = Active) by (rewrite G1, P2; destruct (pending i1); [reflexivity|discriminate|discriminate]).
           destruct (is_active s); exact PA.
        -- split; [exact W3|]. split; [cbn; congruence|]. split; [cbn; congruence|].
           right. right. right. exists raw, s, (avail i2), cs2.
           split; [reflexivity|]. split; [exact EB|]. split; [congruence|].
           split.
           { rewrite <- C4, <- C5, <- AB, <- AS. f_equal. unfold abs_of. cbn [set_pending pending st at_start expect_starter].
             change (residue (set_pending i3 s)) with (residue i3). now rewrite R3, G2, G3, G6. }
           split; [now rewrite AV|]. split; [exact A3|]. split; [exact LEN|]. right. split; [reflexivity|]. split; [reflexivity|].
           apply M3; [reflexivity|clear - L2; lia].
      * injection H as <- <- <- <-. split; [exact W1|]. split; [exact C4|]. split; [exact C5|]. right. right. left.
        repeat split; auto; try congruence. now rewrite A1, A2, app_nil_r.
    + injection H as <- <- <- <-. split; [exact W1|]. split; [exact C4|]. split; [exact C5|]. right. left.
      split; [reflexivity|]. split; [reflexivity|]. split; [exact EB|]. split; [exact A1|].
      split; [rewrite <- AB; unfold abs_of; cbn; rewrite EP; reflexivity|]. split; [exact L1|].
      right. split; [congruence|]. split; [reflexivity|exact A2].
  - injection H as <- <- <- <-. split; [exact W1|]. split; [exact C4|]. split; [exact C5|]. right. left.
    repeat split; auto. left. split; [|exact C1]. apply L3; [reflexivity|clear - B4; lia].
Qed.
