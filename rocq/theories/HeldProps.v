(** The iterators hold a bounded number of characters. *)
From Coq Require Import NArith Arith List Bool Lia ZifyBool ZifyNat ZifyN.
From Verif Require Import Base Ucd UcdTables Norm Chars TextTables TextUtils UcdFacts NormFacts CharFacts PipelineFacts KeepFacts Output Errors NormIter NormIterProps SpecAhead AheadProps.
Import ListNotations.
Local Open Scope N_scope.
Arguments N.add : simpl never.
Arguments N.leb : simpl never.
Arguments N.ltb : simpl never.
Arguments N.eqb : simpl never.
Arguments cjk1 : simpl never.
Arguments cd : simpl never.
Arguments SUB : simpl never.

Lemma pat_one : forall c, (1 <= length (pat c))%nat.
Proof. intro c. unfold pat. rewrite map_length. apply kd_len. Qed.
Lemma pat_under : forall l n m, (n <= m)%nat -> (m <= 30)%nat -> runs_ok m (flat_map pat l) = true ->
  runs_ok n (map nonstarter l) = true /\ (run_end n (map nonstarter l) <= run_end m (flat_map pat l))%nat.
Proof.
  induction l as [|x l IH]; intros n m A B H; [cbn; auto|]. cbn [flat_map map] in *. rewrite runs_ok_app in H. apply andb_prop in H. destruct H as [H1 H2]. rewrite run_end_app.
  pose proof (run_end_le _ _ H1 B) as E. unfold nonstarter at 1 3. destruct (N.eqb_spec (ccc x) 0) as [C|C]; cbn [negb runs_ok run_end].
  - apply IH; [lia|exact E|exact H2].
  - pose proof (pat_one x) as P. rewrite (pat_true x C) in H1, H2, E |- *. rewrite run_end_true in *. rewrite runs_ok_true in H1 by exact B. apply Nat.leb_le in H1.
    destruct (IH (S n) (m + length (pat x))%nat) as [K1 K2]; [lia|lia|exact H2|]. rewrite K1. split; [apply andb_true_intro; split; [apply Nat.leb_le; lia|reflexivity]|exact K2].
Qed.

(** * Stream-Safe *)
Definition safe_ok (s : safer) : Prop := (nonstarter_count s <= 30)%nat.
Lemma safe_step : forall s c s' n, safe_next s = (Some c, s') -> safe_ok s -> (n <= nonstarter_count s)%nat ->
  safe_ok s' /\ runs_ok n (map nonstarter (cd c)) = true /\ (run_end n (map nonstarter (cd c)) <= nonstarter_count s')%nat.
Proof.
  intros [r k b] c s' n H O L. unfold safe_ok in *. cbn [nonstarter_count] in *. unfold safe_next in H. cbn [safe_buf safe_src nonstarter_count] in H.
  destruct (match b with Some c => (Some c, r) | None => rep_next r end) as [[c1|] r1]; [|discriminate]. destruct (Nat.ltb_spec MAX_NONSTARTERS (k + cl_leading c1)) as [Q|Q]; injection H as <- <-; cbn [nonstarter_count].
  - split; [lia|]. destruct (b_inert _ boring_CGJ) as (C & F & _). rewrite F. cbn [map]. unfold nonstarter. rewrite C. cbn. auto.
  - assert (RO : runs_ok k (pat c1) = true) by (rewrite runs_ok_pat by exact O; apply Nat.leb_le; exact Q). split; [apply next_le; [exact O|now apply Nat.leb_le]|].
    rewrite count_next_run. rewrite pat_cd in RO |- *. apply pat_under; [exact L|exact O|exact RO].
Qed.

(** * Decomposition *)
Lemma ins_pat : forall x l, map nonstarter (ins x l) = nonstarter x :: map nonstarter l.
Proof.
  intros x l. induction l as [|y t IH]; [reflexivity|]. cbn [ins]. destruct (negb (ccc y =? 0) && (ccc y <? ccc x)) eqn:E; [|reflexivity]. cbn [map]. rewrite IH. unfold nonstarter.
  replace (ccc x =? 0) with false by (symmetry; apply N.eqb_neq; lia). apply andb_prop in E. destruct E as [-> _]. reflexivity.
Qed.
Lemma sort_pat : forall l, map nonstarter (sort_pending l) = map nonstarter l.
Proof. induction l as [|x l IH]; [reflexivity|]. cbn [sort_pending fold_right]. fold (sort_pending l). rewrite ins_pat, IH. reflexivity. Qed.
Definition dpat (d : decomposer) : list bool := map nonstarter (pending d).
Lemma dec_sort_pat : forall d, dpat (dec_sort d) = dpat d.
Proof. intro d. unfold dpat, dec_sort. cbn [pending]. rewrite map_app, sort_pat, <- map_app, firstn_skipn. reflexivity. Qed.
Lemma push_pat : forall d c, dpat (push_back d c) = dpat d ++ [nonstarter c].
Proof.
  intros d c. unfold push_back. destruct (ccc c =? 0); unfold dpat at 1; cbn [pending]; rewrite map_app; [|reflexivity]. fold (dpat (dec_sort d)). now rewrite dec_sort_pat.
Qed.
Lemma push_all_pat : forall l d, dpat (fold_left push_back l d) = dpat d ++ map nonstarter l.
Proof. induction l as [|c l IH]; intro d; [cbn; now rewrite app_nil_r|]. cbn [fold_left map]. rewrite IH, push_pat, <- app_assoc. reflexivity. Qed.

Definition marks (l : list N) : Prop := Forall (fun c => ccc c <> 0) l.
(** what waits: at most one starter, at the front *)
Definition one_run (l : list N) : Prop := match l with [] => True | _ :: t => marks t end.
Definition from_starter (l : list N) : Prop := match l with [] => False | x :: t => ccc x = 0 /\ marks t end.
Definition dec_ok (d : decomposer) : Prop :=
  safe_ok (dec_src d) /\ runs_ok 0 (dpat d) = true /\ (run_end 0 (dpat d) <= nonstarter_count (dec_src d))%nat /\ (length (pending d) <= 35)%nat /\
  (ready_end d = 0%nat -> one_run (pending d)) /\
  (ready_end d <> 0%nat -> from_starter (waiting d) \/ (waiting d = [] /\ rest_safe (dec_src d) = [])).
Lemma marks_true : forall l, marks l <-> map nonstarter l = repeat true (length l).
Proof.
  unfold marks. induction l as [|c l IH]; [split; auto|]. cbn [map length repeat]. unfold nonstarter at 1. split.
  - intro H. inversion H; subst. replace (ccc c =? 0) with false by (symmetry; now apply N.eqb_neq). cbn [negb]. f_equal. now apply IH.
  - intro H. injection H as H1 H2. constructor; [|now apply IH]. apply N.eqb_neq. now apply negb_true_iff.
Qed.
Lemma one_run_length : forall l, one_run l -> (length l <= S (run_end 0 (map nonstarter l)))%nat.
Proof.
  intros [|x t] H; [cbn; lia|]. cbn [one_run] in H. apply marks_true in H. cbn [map length run_end]. rewrite H. destruct (nonstarter x); rewrite run_end_true; lia.
Qed.
Lemma one_run_snoc : forall l c, one_run l -> ccc c <> 0 -> one_run (l ++ [c]).
Proof. intros [|x t] c H C; cbn; [constructor|]. apply Forall_app. split; [exact H|]. constructor; [exact C|constructor]. Qed.
Lemma push_shape : forall d c, dec_inv d -> (ready_end d = 0%nat -> one_run (pending d)) -> (ready_end d <> 0%nat -> from_starter (waiting d)) ->
  (ready_end (push_back d c) = 0%nat -> one_run (pending (push_back d c))) /\ (ready_end (push_back d c) <> 0%nat -> from_starter (waiting (push_back d c))).
Proof.
  intros d c I A B. destruct (push_spec d c I) as (P & _ & I'). destruct (N.eqb_spec (ccc c) 0) as [C|C].
  - destruct P as [P1 P2]. split.
    + intro Z. unfold waiting in P2. rewrite Z in P2. cbn [skipn] in P2. rewrite P2. cbn. constructor.
    + intros _. rewrite P2. cbn. split; [exact C|constructor].
  - destruct P as [P1 P2]. assert (RE : ready_end (push_back d c) = ready_end d) by (unfold push_back; destruct (N.eqb_spec (ccc c) 0); [contradiction|reflexivity]). rewrite RE. split.
    + intro Z. unfold push_back. destruct (N.eqb_spec (ccc c) 0); [contradiction|]. cbn [pending]. apply one_run_snoc; auto.
    + intro Z. rewrite P2. specialize (B Z). destruct (waiting d) as [|x t]; [destruct B|]. cbn in *. destruct B as [B1 B2]. split; [exact B1|]. apply Forall_app. split; [exact B2|]. constructor; [exact C|constructor].
Qed.
Lemma push_all_shape : forall l d, dec_inv d -> (ready_end d = 0%nat -> one_run (pending d)) -> (ready_end d <> 0%nat -> from_starter (waiting d)) ->
  let e := fold_left push_back l d in (ready_end e = 0%nat -> one_run (pending e)) /\ (ready_end e <> 0%nat -> from_starter (waiting e)).
Proof.
  induction l as [|c l IH]; intros d I A B; [cbn; auto|]. cbn [fold_left]. destruct (push_shape d c I A B) as [A' B']. apply IH; [apply push_spec; exact I|exact A'|exact B'].
Qed.
(** The first character, if it is a starter, stays the first. *)
Lemma dec_sort_head : forall d x, head_opt (pending d) = Some x -> ccc x = 0 -> head_opt (pending (dec_sort d)) = Some x.
Proof.
  intros [s p a b] x H C. unfold dec_sort. cbn [pending ready_end] in *. destruct p as [|y p]; [discriminate|]. injection H as ->. destruct b as [|b]; [|reflexivity]. cbn [firstn skipn app]. now rewrite sort_starter.
Qed.
Lemma push_head : forall l d x, head_opt (pending d) = Some x -> ccc x = 0 -> head_opt (pending (fold_left push_back l d)) = Some x.
Proof.
  induction l as [|c l IH]; intros d x H C; [exact H|]. cbn [fold_left]. apply IH; [|exact C]. unfold push_back.
  assert (K : forall e, head_opt (pending e) = Some x -> head_opt (pending (mkdec (dec_src e) (pending e ++ [c]) (ready_start e) (ready_end e))) = Some x) by (intros [s p a b] K; cbn in *; destruct p; [discriminate|exact K]).
  apply K. destruct (ccc c =? 0); [now apply dec_sort_head|exact H].
Qed.
Lemma push_start : forall l d, ready_start (fold_left push_back l d) = ready_start d.
Proof. induction l as [|c l IH]; intro d; [reflexivity|]. cbn [fold_left]. rewrite IH. unfold push_back. destruct (ccc c =? 0); reflexivity. Qed.
Lemma fill_ok : forall fuel d, dec_inv d -> dec_ok d -> (length (rest_safe (dec_src d)) < fuel)%nat -> let e := dec_fill fuel d in
  dec_ok e /\ ready_start e = ready_start d /\ (forall x, head_opt (pending d) = Some x -> ccc x = 0 -> head_opt (pending e) = Some x).
Proof.
  induction fuel as [|fuel IH]; intros d I O L; [lia|]. cbn [dec_fill]. destruct (Nat.eqb_spec (ready_end d) 0) as [Z|Z]; [|cbn; auto].
  destruct O as (O1 & O2 & O3 & O4 & O5 & O6). specialize (O5 Z). pose proof (one_run_length _ O5) as OL. fold (dpat d) in OL. unfold safe_ok in O1.
  destruct (safe_next (dec_src d)) as [o s] eqn:E. destruct (safe_rest _ _ _ E (proj1 I)) as [SI R].
  assert (I0 : dec_inv (mkdec s (pending d) (ready_start d) (ready_end d))) by (destruct I as (_ & I2 & I3); split; [exact SI|split; assumption]).
  destruct o as [c|].
  - destruct (push_all (cd c) _ I0) as (J & S & _). cbn zeta in *. destruct (safe_step _ _ _ _ E O1 O3) as (S1 & S2 & S3).
    destruct (push_all_shape (cd c) _ I0) as [A B]; [cbn; intros _; exact O5|cbn; intro K; contradiction|]. pose proof (push_all_pat (cd c) (mkdec s (pending d) (ready_start d) (ready_end d))) as P.
    pose proof (push_head (cd c) (mkdec s (pending d) (ready_start d) (ready_end d))) as H. cbn [pending] in H. change (dpat (mkdec s (pending d) (ready_start d) (ready_end d))) with (dpat d) in P.
    pose proof (push_start (cd c) (mkdec s (pending d) (ready_start d) (ready_end d))) as PS. cbn [ready_start] in PS.
    set (e := fold_left push_back (cd c) (mkdec s (pending d) (ready_start d) (ready_end d))) in *. clearbody e. cbn [dec_src] in S.
    assert (OE : dec_ok e).
    { unfold dec_ok. rewrite S, P. split; [exact S1|]. split; [rewrite runs_ok_app, O2, S2; reflexivity|]. split; [rewrite run_end_app; exact S3|]. split; [|split; [exact A|intro K; left; auto]].
      apply (f_equal (@length bool)) in P. unfold dpat in P. rewrite app_length, !map_length in P. pose proof (cd_len4 c). unfold dpat in *. lia. }
    destruct (IH e J OE) as (K1 & K3 & K2); [rewrite S; rewrite R in L; cbn in L; lia|]. cbn zeta in *. split; [exact K1|]. split; [congruence|]. intros x H1 H2. apply K2; [now apply H|exact H2].
  - cbn zeta. pose proof (dec_sort_pat (mkdec s (pending d) (ready_start d) (ready_end d))) as P. change (dpat (mkdec s (pending d) (ready_start d) (ready_end d))) with (dpat d) in P. destruct (dec_sort_spec _ I0) as (_ & S2 & S3 & _ & S5). destruct R as [R1 R2].
    assert (NC : nonstarter_count s = nonstarter_count (dec_src d)).
    { clear - E. unfold safe_next in E. destruct (dec_src d) as [r k b]. cbn [safe_buf safe_src nonstarter_count] in *. destruct (match b with Some c => (Some c, r) | None => rep_next r end) as [[c|] r1]; [destruct (Nat.ltb _ _); discriminate|]. now injection E as <-. }
    split; [|split; [reflexivity|intros x H C; now apply dec_sort_head]]. set (e := dec_sort _) in *. clearbody e. cbn [dec_src] in S5. unfold dec_ok. rewrite S5, P. split; [unfold safe_ok; lia|]. split; [exact O2|]. split; [lia|].
    assert (LE : length (pending e) = length (pending d)) by (apply (f_equal (@length bool)) in P; unfold dpat in P; now rewrite !map_length in P).
    split; [lia|]. split; [intro K; rewrite S3 in K; apply length_zero_iff_nil in K; rewrite K; exact Logic.I|]. intros _. right. auto.
Qed.
Lemma leading_pat : forall l, runs_ok 0 (map nonstarter l) = true -> (leading l <= 30)%nat.
Proof.
  assert (G : forall l n, runs_ok n (map nonstarter l) = true -> (n <= 30)%nat -> (n + leading l <= 30)%nat).
  { induction l as [|c l IH]; intros n H A; [cbn; lia|]. cbn [map runs_ok leading] in *. destruct (nonstarter c); [|lia]. apply andb_prop in H. destruct H as [H1 H2]. apply Nat.leb_le in H1. specialize (IH _ H2 H1). lia. }
  intros l H. apply (G l 0%nat H). lia.
Qed.
Lemma runs_any : forall bs n m, (n <= m)%nat -> runs_ok m bs = true -> runs_ok n bs = true.
Proof.
  induction bs as [|b bs IH]; intros n m A H; [reflexivity|]. cbn [runs_ok] in *. destruct b; [|exact H]. apply andb_prop in H. destruct H as [H1 H2]. apply Nat.leb_le in H1. apply andb_true_intro. split; [apply Nat.leb_le; lia|]. now apply (IH (S n) (S m)); [lia|].
Qed.
Lemma runs_skip : forall k l, runs_ok 0 (map nonstarter l) = true -> runs_ok 0 (map nonstarter (skipn k l)) = true.
Proof.
  intros k l H. rewrite <- (firstn_skipn k l), map_app, runs_ok_app in H. apply andb_prop in H. destruct H as [_ H]. now apply (runs_any _ 0 _ (Nat.le_0_l _) H).
Qed.
Lemma run_end_mono : forall bs n m, (n <= m)%nat -> (run_end n bs <= run_end m bs)%nat.
Proof. induction bs as [|[|] bs IH]; intros n m A; cbn; [exact A|apply IH; lia|lia]. Qed.
Lemma run_end_skip : forall k l, (run_end 0 (map nonstarter (skipn k l)) <= run_end 0 (map nonstarter l))%nat.
Proof. intros k l. rewrite <- (firstn_skipn k l) at 2. rewrite map_app, run_end_app. apply run_end_mono. lia. Qed.

Definition ahead (d : decomposer) : nat := leading (skipn (ready_start d) (pending d)).
(** nothing has been kept back, or a starter comes next *)
Definition clear_start (d : decomposer) (n : nat) : Prop :=
  ready_end d = 0%nat -> n = 0%nat \/ (exists x, head_opt (pending d) = Some x /\ ccc x = 0) \/ (pending d = [] /\ rest_safe (dec_src d) = []).
Lemma dec_next_ok : forall fuel d o d', dec_next fuel d = (o, d') -> dec_inv d -> dec_ok d -> (length (rest_safe (dec_src d)) < fuel)%nat ->
  dec_ok d' /\ (forall m, clear_start d' m) /\
  match o with Some c => (ahead d' <= 30)%nat /\ (forall n, (n + ahead d <= 30)%nat -> clear_start d n -> ccc c <> 0 -> (n + 1 + ahead d' <= 30)%nat) | None => True end.
Proof.
  intros fuel d o d' H I O L. unfold dec_next in H. destruct (fill_spec fuel d I L) as (J & R & Q). destruct (fill_ok fuel d I O L) as (K & RE & HD). cbn zeta in *. pose proof (dec_next_spec fuel d o d') as RD. unfold dec_next in RD. specialize (RD H I L). destruct RD as [_ RD].
  assert (SAME : ready_end d <> 0%nat -> dec_fill fuel d = d) by (intro Z; destruct fuel; [reflexivity|]; cbn [dec_fill]; destruct (Nat.eqb_spec (ready_end d) 0); [contradiction|reflexivity]).
  assert (EX : pending d = [] -> rest_safe (dec_src d) = [] -> rest_dec d = []).
  { intros P S. unfold rest_dec, ready, waiting. rewrite P, S, firstn_nil, !skipn_nil. reflexivity. }
  set (e := dec_fill fuel d) in *. clearbody e. destruct K as (K1 & K2 & K3 & K4 & K5 & K6). destruct (nth_error (pending e) (ready_start e)) as [c|] eqn:E.
  - injection H as <- <-. destruct J as (J1 & J2 & J3). destruct J3 as [[A B]|A]; [destruct (Q B) as [P _]; rewrite P, A in E; discriminate|]. assert (NZ : ready_end e <> 0%nat) by lia. specialize (K6 NZ).
    pose proof (nth_skipn _ _ _ E) as SK. 
    assert (D : dec_ok (increment_next_ready e) /\ ahead (increment_next_ready e) = leading (skipn (S (ready_start e)) (pending e)) /\ forall m, clear_start (increment_next_ready e) m).
    { unfold increment_next_ready. destruct (Nat.eqb_spec (S (ready_start e)) (ready_end e)) as [Z|Z].
      - split; [|split].
        + unfold dec_ok, dpat. cbn [dec_src pending ready_start ready_end]. split; [exact K1|]. split; [apply runs_skip; exact K2|]. split; [pose proof (run_end_skip (ready_end e) (pending e)); unfold dpat in K3; lia|].
          split; [rewrite skipn_length; lia|]. split; [|intro; contradiction]. intros _. fold (waiting e). destruct K6 as [W|[W _]]; [|rewrite W; exact Logic.I]. destruct (waiting e); [destruct W|apply W].
        + unfold ahead. cbn [ready_start pending]. rewrite Z. reflexivity.
        + intros m _. right. cbn [pending dec_src]. fold (waiting e). destruct K6 as [W|W]; [left|right; exact W]. destruct (waiting e) as [|x t]; [destruct W|]. exists x. split; [reflexivity|apply W].
      - split; [|split; [reflexivity|intros m K; cbn [ready_end] in K; contradiction]]. unfold dec_ok. cbn [dec_src pending ready_start ready_end]. unfold dpat, waiting in *. cbn [pending ready_end]. auto 10. }
    destruct D as (D1 & D2 & D3). split; [exact D1|]. split; [exact D3|]. rewrite D2. split; [apply leading_pat, runs_skip; exact K2|]. intros n N C CC.
    assert (AE : ahead e = S (leading (skipn (S (ready_start e)) (pending e)))).
    { unfold ahead. rewrite SK. cbn [leading]. unfold nonstarter. destruct (N.eqb_spec (ccc c) 0); [contradiction|reflexivity]. }
    assert (A30 : (ahead e <= 30)%nat) by (unfold ahead; apply leading_pat, runs_skip; exact K2).
    destruct (Nat.eq_dec (ready_end d) 0) as [Z|Z]; [|rewrite (SAME Z) in *; lia].
    destruct (C Z) as [-> |[(x & X1 & X2)|[P S]]]; [lia| |].
    + exfalso. apply CC. assert (RS : ready_start d = 0%nat) by (destruct I as (_ & _ & [[? ?]|?]); lia). pose proof (HD x X1 X2) as Y. rewrite RE, RS in E. destruct (pending e); [discriminate|]. cbn in E, Y. congruence.
    + exfalso. rewrite (EX P S) in RD. discriminate.
  - injection H as <- <-. split; [unfold dec_ok; auto 10|]. split; [|exact Logic.I]. intros m Z. right. right. exact (Q Z).
Qed.

(** * Recomposition *)
Definition rec_ok (r : recomposer) : Prop :=
  dec_ok (rec_src r) /\ (length (rec_buf r) <= 30)%nat /\
  match rec_state r with Composing => (length (rec_buf r) + ahead (rec_src r) <= 30)%nat /\ clear_start (rec_src r) (length (rec_buf r)) | _ => True end.
Lemma rec_next_ok : forall fuel r o r', rec_next fuel r = (o, r') -> rec_inv r -> (need_fuel r <= fuel)%nat -> rec_ok r -> rec_ok r'.
Proof.
  induction fuel as [|fuel IH]; intros r o r' H I L O; [destruct (rec_state r) eqn:E; unfold need_fuel in L; rewrite E in L; lia|].
  destruct r as [d st b k l]. destruct I as [I1 I2]. destruct O as (O1 & O2 & O3). unfold need_fuel in L. cbn [rec_next rec_src rec_state rec_buf composee last_ccc] in *. destruct st as [|n|n].
  - destruct O3 as [O3 O4]. destruct (dec_next fuel d) as [q d1] eqn:E. assert (LF0 : (length (rest_safe (dec_src d)) < fuel)%nat) by lia.
    destruct (dec_next_spec _ _ _ _ E I1 LF0) as [J R]. pose proof (dec_src_shrinks _ _ _ _ E I1) as SH. destruct (dec_next_ok _ _ _ _ E I1 O1 LF0) as (D & CS & M). destruct q as [ch|].
    + rewrite R in L. cbn [length] in L. destruct M as [M1 M2]. specialize (M2 _ O3 O4).
      assert (GO : forall v, rec_inv v -> rec_src v = d1 /\ rec_state v = Composing -> rec_next fuel v = (o, r') -> (length (rec_buf v) + ahead d1 <= 30)%nat -> rec_ok r').
      { intros v V1 [V2 V4] V3 V5. apply (IH v o r' V3 V1); [unfold need_fuel; rewrite V2, V4; lia|]. unfold rec_ok. rewrite V2, V4. split; [exact D|]. split; [lia|]. split; [exact V5|apply CS]. }
      assert (EN : forall st' b' k' l', (length b' <= 30)%nat -> (st' = Composing -> b' = []) -> rec_ok (mkrec d1 st' b' k' l')).
      { intros st' b' k' l' B1 B2. unfold rec_ok. cbn [rec_src rec_state rec_buf]. split; [exact D|]. split; [exact B1|]. destruct st'; [|exact Logic.I..]. rewrite (B2 eq_refl). cbn [length]. split; [lia|apply CS]. }
      destruct k as [k|].
      * destruct l as [l|].
        -- destruct (ccc ch <=? l) eqn:C1.
           ++ destruct (N.eqb_spec (ccc ch) 0) as [C2|C2].
              ** injection H as <- <-. apply EN; [exact O2|discriminate].
              ** apply GO in H; [exact H|split; [exact J|cbn; discriminate]|split; reflexivity|]. cbn [rec_buf]. rewrite app_length. cbn [length]. auto.
           ++ assert (C2 : ccc ch <> 0) by lia. specialize (M2 C2).
              destruct (compose k ch) as [x|]; (apply GO in H; [exact H|split; [exact J|cbn; discriminate]|split; reflexivity|cbn [rec_buf]; rewrite ?app_length; cbn [length]; lia]).
        -- specialize (I2 eq_refl). subst b. cbn [length] in *. destruct (compose k ch) as [x|].
           ++ apply GO in H; [exact H|split; [exact J|cbn; reflexivity]|split; reflexivity|cbn; exact M1].
           ++ destruct (N.eqb_spec (ccc ch) 0) as [C2|C2].
              ** injection H as <- <-. apply EN; [cbn; lia|reflexivity].
              ** apply GO in H; [exact H|split; [exact J|cbn; discriminate]|split; reflexivity|]. cbn. auto.
      * destruct I2 as [-> ->]. destruct (ccc ch =? 0) eqn:C2.
        -- apply GO in H; [exact H|split; [exact J|cbn; reflexivity]|split; reflexivity|cbn; exact M1].
        -- injection H as <- <-. apply EN; [cbn; lia|reflexivity].
    + destruct R as [R1 R2]. rewrite R1 in *. destruct k as [k|].
      * injection H as <- <-. split; [exact D|]. split; [exact O2|exact Logic.I].
      * destruct I2 as [-> ->]. apply (IH _ _ _ H); [split; [exact J|cbn; auto]|unfold need_fuel; cbn [rec_src rec_state]; rewrite R2; lia|]. split; [exact D|]. split; [exact O2|exact Logic.I].
  - destruct I2 as [K ->]. destruct k as [k|]; [|now destruct K]. clear K. destruct (nth_error b n) as [c|] eqn:E.
    + injection H as <- <-. split; [exact O1|]. split; [exact O2|exact Logic.I].
    + apply (IH _ _ _ H); [split; [exact I1|cbn; auto]|unfold need_fuel; cbn [rec_src rec_state]; lia|]. split; [exact O1|]. cbn [rec_buf rec_state rec_src length]. split; [lia|]. split; [|intros _; now left].
      unfold ahead. apply leading_pat, runs_skip. apply O1.
  - destruct (nth_error b n) as [c|] eqn:E; injection H as <- <-; (split; [exact O1|]; split; [cbn [rec_buf length]; lia|exact Logic.I]).
Qed.
Theorem held_bounded : forall b s n fuel, (rounds s <= fuel)%nat -> (held (after n fuel (convert_iter b s)) <= 69)%nat.
Proof.
  intros b s n fuel L. destruct (convert_enough b s) as (I & T & _).
  assert (O : rec_ok (convert_iter b s)).
  { split; [|split; [cbn; lia|cbn; split; [lia|intros _; now left]]]. split; [unfold safe_ok; cbn; lia|]. split; [reflexivity|]. split; [cbn; lia|]. split; [cbn; lia|]. split; [intros _; exact Logic.I|intro K; now destruct K]. }
  assert (G : forall n r, rec_inv r -> (todo r + 3 <= fuel)%nat -> rec_ok r -> rec_ok (after n fuel r)).
  { clear. induction n as [|n IH]; intros r I T O; [exact O|]. cbn [after]. destruct (rec_next fuel r) as [o r'] eqn:E. cbn [snd]. pose proof (fuel_todo r). destruct (rec_next_spec _ _ _ _ E I ltac:(lia)) as (I' & T' & _). apply IH; [exact I'|lia|]. apply (rec_next_ok _ _ _ _ E I); [lia|exact O]. }
  specialize (G n _ I ltac:(lia) O). set (r := after n fuel (convert_iter b s)) in *. clearbody r. destruct G as (G1 & G2 & _). destruct G1 as (_ & _ & _ & G4 & _). unfold held.
  assert (K : forall o : option N, (length (held_opt o) <= 1)%nat) by (intros [c|]; cbn; lia). rewrite !app_length.
  pose proof (K (deferred (rep_src (safe_src (dec_src (rec_src r)))))). pose proof (K (rep_buf (safe_src (dec_src (rec_src r))))). pose proof (K (safe_buf (dec_src (rec_src r)))). pose proof (K (composee r)). lia.
Qed.
