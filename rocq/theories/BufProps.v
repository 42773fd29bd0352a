(** std::io::BufReader over a TextReader. *)
From Coq Require Import NArith Arith List Bool Lia ZifyBool ZifyNat ZifyN.
From Verif Require Import Base Ucd UcdTables Norm Chars TextTables TextUtils UcdFacts NormFacts CharFacts DocTable SpecText TextFacts PipelineFacts DocFacts IsoFacts
  Utf8 Utf8Facts Input Output ReadFacts ReadInv ReadSession SpecRead ScalarFacts ReadChunk SpecEscape EscapeFacts EscapeRun ReadProps KeepFacts ReadPieces SpecConv ConvFacts ReadMore
  SpecWrite WriteFacts WriteProps Strings StringFacts EdgeFacts Copy CopyProps ExactProps StdIo SpecStd CutProps StdProps SizeProps SpecCat Lines SpecLine LineProps LineIo StdBuf SpecBuf.
Import ListNotations.
Local Open Scope N_scope.
Arguments N.add : simpl never.
Arguments N.leb : simpl never.
Arguments N.ltb : simpl never.
Arguments N.eqb : simpl never.
Local Opaque pipeline.

Lemma read_length : forall i sc b r cs j sc', wf i -> read i sc b = (r, cs, j, sc') -> (str_len cs <= b)%nat.
Proof.
  intros i sc b r cs j sc' W H. destruct (read_spec _ _ _ _ _ _ _ W H) as (_ & _ & _ & C).
  destruct C as [(_ & _ & -> & _)|[C|[C|(raw & s' & new & cs2 & C)]]]; [cbn; lia| | |]; decompose [and] C; assumption.
Qed.
Lemma std_cases : forall i sc b r cs j sc', wf i -> (136 <= b)%nat -> read i sc b = (r, cs, j, sc') ->
  match std_result false r with
  | SOk _ => received [(r, cs)] = cs /\ (cs = [] -> r = ROk 0 End)
  | SInterrupted => cs = [] /\ exists s, r = ROk 0 s
  | SErr => received [(r, cs)] = [] /\ r = RErr
  end.
Proof.
  intros i sc b r cs j sc' W B H. destruct r as [n s| |].
  - pose proof (read_count _ _ _ _ _ _ _ _ W H) as L. destruct n as [|n]; [symmetry in L; apply str_len_zero in L; subst cs; destruct s; cbn; eauto|].
    cbn. rewrite app_nil_r. split; [reflexivity|]. intros ->. discriminate.
  - destruct (read_spec _ _ _ _ _ _ _ W H) as (_ & _ & _ & C). exfalso. rewrite nbs_136 in C.
    destruct C as [(_ & X & _)|[(E & _)|[(E & _)|(raw & s' & new & cs2 & _ & _ & _ & _ & _ & _ & _ & [(E & _)|(E & _)])]]]; try congruence. lia.
  - cbn. auto.
Qed.
Lemma received_snoc : forall a b, received (a ++ b) = received a ++ received b.
Proof. intros. unfold received. apply flat_map_app. Qed.
Lemma reads_snoc : forall sizes i sc rs j sc1 b r cs j' sc2, reads i sc sizes = (rs, j, sc1) -> read j sc1 b = (r, cs, j', sc2) ->
  reads i sc (sizes ++ [b]) = (rs ++ [(r, cs)], j', sc2).
Proof.
  induction sizes as [|x sizes IH]; intros i sc rs j sc1 b r cs j' sc2 H R; cbn [reads app] in *.
  - injection H as <- <- <-. now rewrite R.
  - destruct (read i sc x) as [[[r0 cs0] i0] sc0]. destruct (reads i0 sc0 sizes) as [[rs' j0] sc3] eqn:E. injection H as <- <- <-. now rewrite (IH _ _ _ _ _ _ _ _ _ _ E R).
Qed.

(** * What one call does *)
(** The state of a BufReader: a session of reads, whose text was given out or is
    buffered. *)
Definition session (nel lsps : bool) (script : list event) (given : list N) (b : bufreader) (ns : list nat) (xs : list (read_result * list N)) : Prop :=
  legal_sizes ns /\ reads (new_input nel lsps) script ns = (xs, under b, stream b) /\ given ++ unread b = encode_all (received xs) /\ wf (under b) /\ exists D, ainv D (abs_of (under b)).
Lemma session_new : forall nel lsps script cap, session nel lsps script [] (new_bufreader nel lsps script cap) [] [].
Proof. intros. split; [constructor|]. split; [reflexivity|]. split; [reflexivity|]. split; [apply wf_new|]. exists []. apply new_ainv. Qed.

Lemma errors_app : forall a b, errors_given (a ++ b) = (errors_given a + errors_given b)%nat.
Proof. intros. unfold errors_given. now rewrite filter_app, app_length. Qed.
Lemma failed_app : forall a b, reads_failed (a ++ b) = (reads_failed a + reads_failed b)%nat.
Proof. intros. unfold reads_failed. now rewrite filter_app, app_length. Qed.
Definition progress (b b' : bufreader) : Prop := (measure (under b') (stream b') < measure (under b) (stream b))%nat.
Lemma direct_spec : forall nel lsps script g b ns xs n r b', session nel lsps script g b ns xs -> unread b = [] -> (136 <= n)%nat -> direct b n = (r, b') ->
  unread b' = [] /\ capacity b' = capacity b /\
  exists x cs, let xs' := xs ++ [(x, cs)] in
  session nel lsps script (g ++ match r with BOk bs => bs | _ => [] end) b' (ns ++ [n]) xs' /\
  (match r with BOk bs => (length bs <= n)%nat | _ => True end) /\
  (no_fail (stream b) -> r <> BErr /\ no_fail (stream b')) /\ (r = BOk [] -> x = ROk 0 End) /\ reads_failed [(x, cs)] = errors_given [r] /\ (r = BOk [] \/ progress b b').
Proof.
  intros nel lsps script g b ns xs n r b' (LS & RD & EQ & W & D & I) U L H. unfold direct in H.
  destruct (read (under b) (stream b) n) as [[[x cs] i] sc] eqn:ER. injection H as <- <-. cbn [unread capacity under stream].
  split; [exact U|]. split; [reflexivity|]. exists x, cs. cbv zeta. pose proof (std_cases _ _ _ _ _ _ _ W L ER) as SC. pose proof (read_length _ _ _ _ _ _ _ W ER) as LN.
  destruct (read_progress0 _ _ _ _ _ _ _ _ W I (eq_ind_r (fun k => (k <= n)%nat) L nbs_136) ER) as [I' PR].
  rewrite U, app_nil_r in EQ.
  split.
  { split; [apply Forall_app; split; [exact LS|constructor; [exact L|constructor]]|]. split; [exact (reads_snoc _ _ _ _ _ _ _ _ _ _ _ RD ER)|].
    split; [|split; [exact (read_wf _ _ _ _ _ _ _ W ER)|exact I']]. cbn [unread]. rewrite U, app_nil_r, received_snoc, encode_all_app, <- EQ.
    destruct (std_result false x); [destruct SC as [-> _]; reflexivity|destruct SC as (-> & s & ->); reflexivity|destruct SC as [-> _]; reflexivity]. }
  split; [destruct (std_result false x); auto; now rewrite encode_all_length|].
  split.
  { intro NF. destruct (read_no_fail _ _ _ _ _ _ _ W NF ER) as (E1 & _ & E2). split; [|exact E2]. destruct (std_result false x); try discriminate. destruct SC as [_ ->]. congruence. }
  split; [|split; [destruct (std_result false x) eqn:EX; [destruct (std_ok _ _ _ EX) as [s ->]; reflexivity|destruct SC as (_ & s & ->); reflexivity|destruct SC as [_ ->]; reflexivity]|destruct PR as [->|PR]; [left; cbn; pose proof (read_count _ _ _ _ _ _ _ _ W ER) as C; symmetry in C; apply str_len_zero in C; now subst cs|now right]]].
  intro E. destruct (std_result false x); try discriminate. injection E as E. apply encode_all_nil in E. exact (proj2 SC E).
Qed.

Lemma fill_spec : forall nel lsps script g b ns xs r b', session nel lsps script g b ns xs -> (136 <= capacity b)%nat -> fill_buf b = (r, b') ->
  capacity b' = capacity b /\ ((length (unread b) <= capacity b)%nat -> (length (unread b') <= capacity b)%nat) /\
  (match r with BOk bs => unread b' = bs | _ => unread b' = [] end) /\
  (no_fail (stream b) -> r <> BErr /\ no_fail (stream b')) /\
  (unread b <> [] -> b' = b /\ r = BOk (unread b)) /\ (unread b = [] -> r = BOk [] \/ progress b b') /\
  exists ns' xs', session nel lsps script g b' ns' xs' /\ reads_failed xs' = (reads_failed xs + errors_given [r])%nat /\ (r = BOk [] -> reached_end xs').
Proof.
  intros nel lsps script g b ns xs r b' S C H. unfold fill_buf in H. destruct (unread b) as [|u0 us] eqn:EU.
  - destruct (direct b (capacity b)) as [r0 b0] eqn:ED. destruct (direct_spec _ _ _ _ _ _ _ _ _ _ S EU C ED) as (U0 & C0 & x & cs & (S1 & S2 & S3 & S4) & L & NF & EN & ER & PR).
    assert (REST : forall k, session nel lsps script (g ++ k) b0 (ns ++ [capacity b]) (xs ++ [(x, cs)]) -> session nel lsps script g (mkbuf (under b0) (stream b0) (capacity b0) k) (ns ++ [capacity b]) (xs ++ [(x, cs)])).
    { intros k (T1 & T2 & T3 & T4). rewrite U0, app_nil_r in T3. split; [exact T1|]. split; [exact T2|]. split; [exact T3|exact T4]. }
    assert (P0 : r0 = BOk [] \/ progress b b0) by exact PR.
    destruct r0 as [bs| |]; injection H as <- <-; cbn [capacity unread stream under]; rewrite ?C0, ?U0.
    + split; [reflexivity|]. split; [auto|]. split; [reflexivity|]. split; [exact NF|]. split; [congruence|]. split; [intros _; exact P0|].
      exists (ns ++ [capacity b]), (xs ++ [(x, cs)]). split; [apply (fun q => eq_ind _ (fun z => session nel lsps script g (mkbuf (under b0) (stream b0) z bs) _ _) (REST bs q) _ C0); exact (conj S1 (conj S2 (conj S3 S4)))|]. split; [now rewrite failed_app, ER|].
      intro E. exists xs, 0%nat, cs. now rewrite (EN E).
    + split; [reflexivity|]. split; [cbn; lia|]. split; [reflexivity|]. split; [exact NF|]. split; [congruence|]. split; [intros _; exact P0|].
      exists (ns ++ [capacity b]), (xs ++ [(x, cs)]). rewrite app_nil_r in S3. split; [exact (conj S1 (conj S2 (conj S3 S4)))|]. split; [now rewrite failed_app, ER|discriminate].
    + split; [reflexivity|]. split; [cbn; lia|]. split; [reflexivity|]. split; [exact NF|]. split; [congruence|]. split; [intros _; exact P0|].
      exists (ns ++ [capacity b]), (xs ++ [(x, cs)]). rewrite app_nil_r in S3. split; [exact (conj S1 (conj S2 (conj S3 S4)))|]. split; [now rewrite failed_app, ER|discriminate].
  - injection H as <- <-. rewrite EU. split; [reflexivity|]. split; [auto|]. split; [reflexivity|]. split; [intro NF; split; [discriminate|exact NF]|]. split; [auto|]. split; [discriminate|].
    exists ns, xs. split; [exact S|]. split; [cbn; lia|discriminate].
Qed.
Lemma session_consume : forall nel lsps script g b ns xs n, session nel lsps script g b ns xs -> session nel lsps script (g ++ firstn n (unread b)) (consume n b) ns xs.
Proof. intros nel lsps script g b ns xs n (S1 & S2 & S3 & S4). split; [exact S1|]. split; [exact S2|]. split; [|exact S4]. cbn [consume unread]. rewrite <- app_assoc, firstn_skipn. exact S3. Qed.

Lemma weight : forall m' m c l, (m' < m -> l <= c -> m' * S c + l < m * S c + 0)%nat.
Proof. intros m' m c l H L. pose proof (Nat.mul_le_mono_r (S m') m (S c) H) as K. cbn [Nat.mul] in K. lia. Qed.
(** How much is left to do. *)
Definition left_over (b : bufreader) : nat := (measure (under b) (stream b) * S (capacity b) + length (unread b))%nat.
Lemma read_spec1 : forall nel lsps script g b ns xs n r b', session nel lsps script g b ns xs -> (136 <= capacity b)%nat -> buf_read b n = (r, b') ->
  capacity b' = capacity b /\ (no_fail (stream b) -> r <> BErr /\ no_fail (stream b')) /\
  ((length (unread b) <= capacity b)%nat -> (length (unread b') <= capacity b)%nat /\ ((0 < n)%nat -> r = BOk [] \/ (left_over b' < left_over b)%nat)) /\
  exists ns' xs', session nel lsps script (g ++ match r with BOk bs => bs | _ => [] end) b' ns' xs' /\ reads_failed xs' = (reads_failed xs + errors_given [r])%nat /\ ((0 < n)%nat -> r = BOk [] -> reached_end xs' /\ unread b' = []).
Proof.
  intros nel lsps script g b ns xs n r b' S C H. unfold buf_read in H. destruct ((match unread b with [] => true | _ => false end) && (capacity b <=? n)%nat) eqn:EB.
  - apply andb_true_iff in EB. destruct EB as [E1 E2]. apply Nat.leb_le in E2. assert (U : unread b = []) by (destruct (unread b); [reflexivity|discriminate]).
    destruct (direct_spec _ _ _ _ _ _ _ _ _ _ S U (Nat.le_trans _ _ _ C E2) H) as (U0 & C0 & x & cs & S1 & L & NF & EN & ER & PR).
    split; [exact C0|]. split; [exact NF|]. split.
    { intros _. rewrite U0. split; [cbn; lia|]. intros _. destruct PR as [PR|PR]; [auto|]. right. unfold left_over. rewrite U0, C0, U. cbn [length]. apply weight; [exact PR|lia]. }
    exists (ns ++ [n]), (xs ++ [(x, cs)]). split; [exact S1|]. split; [now rewrite failed_app, ER|]. intros _ E. split; [|exact U0]. exists xs, 0%nat, cs. now rewrite (EN E).
  - clear EB. destruct (fill_buf b) as [r0 b0] eqn:EF. destruct (fill_spec _ _ _ _ _ _ _ _ _ S C EF) as (C0 & LL & UU & NF & KE & PR & ns' & xs' & S1 & ER & EN).
    assert (DEC : (length (unread b) <= capacity b)%nat -> unread b = [] -> r0 = BOk [] \/ (left_over b0 < left_over b)%nat).
    { intros L U. destruct (PR U) as [P|P]; [auto|right]. unfold left_over. rewrite U, C0. cbn [length]. apply weight; [exact P|exact (LL L)]. }
    destruct r0 as [bs| |]; injection H as <- <-.
    + split; [exact C0|]. split; [intro F; split; [discriminate|exact (proj2 (NF F))]|]. split.
      { intro L. cbn [consume unread]. split; [rewrite skipn_length; specialize (LL L); lia|]. intro N0. destruct bs as [|x bs]; [left; now rewrite firstn_nil|right].
        assert (SK : (length (skipn n (unread b0)) < length (unread b0))%nat) by (rewrite skipn_length, UU; cbn [length]; lia).
        destruct (unread b) as [|u us] eqn:EU.
        - destruct (DEC L eq_refl) as [E|E]; [discriminate|]. unfold left_over in *. cbn [consume under stream capacity unread]. lia.
        - destruct (KE ltac:(discriminate)) as [-> _]. unfold left_over. cbn [consume under stream capacity unread]. lia. }
      exists ns', xs'. split; [apply (session_consume _ _ _ _ _ _ _ n) in S1; now rewrite UU in S1|]. split; [exact ER|]. intros N0 E. injection E as E. destruct bs as [|x bs]; [|destruct n; [lia|discriminate]].
      split; [now apply EN|]. cbn [consume unread]. rewrite UU. apply skipn_nil.
    + split; [exact C0|]. split; [intro F; split; [discriminate|exact (proj2 (NF F))]|]. split.
      { intro L. split; [exact (LL L)|]. intros _. right. destruct (unread b) as [|u us] eqn:EU; [destruct (DEC L eq_refl) as [E|E]; [discriminate|exact E]|destruct (KE ltac:(discriminate)) as [_ E]; discriminate]. }
      exists ns', xs'. rewrite app_nil_r. split; [exact S1|]. split; [exact ER|discriminate].
    + split; [exact C0|]. split; [exact NF|]. split.
      { intro L. split; [exact (LL L)|]. intros _. right. destruct (unread b) as [|u us] eqn:EU; [destruct (DEC L eq_refl) as [E|E]; [discriminate|exact E]|destruct (KE ltac:(discriminate)) as [_ E]; discriminate]. }
      exists ns', xs'. rewrite app_nil_r. split; [exact S1|]. split; [exact ER|discriminate].
Qed.

(** * Sessions *)
Lemma given_cons : forall r rs, bytes_given (r :: rs) = (match r with BOk bs => bs | _ => [] end) ++ bytes_given rs.
Proof. reflexivity. Qed.
Lemma session_reads : forall sizes nel lsps script g b ns xs rs b', session nel lsps script g b ns xs -> (136 <= capacity b)%nat -> buf_reads b sizes = (rs, b') ->
  capacity b' = capacity b /\ (no_fail (stream b) -> ~ In BErr rs /\ no_fail (stream b')) /\ ((length (unread b) <= capacity b)%nat -> (length (unread b') <= capacity b)%nat) /\
  exists ns' xs', session nel lsps script (g ++ bytes_given rs) b' ns' xs' /\ reads_failed xs' = (reads_failed xs + errors_given rs)%nat.
Proof.
  induction sizes as [|n sizes IH]; intros nel lsps script g b ns xs rs b' S C H; cbn [buf_reads] in H.
  - injection H as <- <-. split; [reflexivity|]. split; [intro F; split; [intros []|exact F]|]. split; [auto|]. exists ns, xs. cbn [bytes_given flat_map]. rewrite app_nil_r. split; [exact S|cbn; lia].
  - destruct (buf_read b n) as [r b1] eqn:E1. destruct (buf_reads b1 sizes) as [rs' b2] eqn:E2. injection H as <- <-.
    destruct (read_spec1 _ _ _ _ _ _ _ _ _ _ S C E1) as (C1 & NF & LL & ns1 & xs1 & S1 & ER1 & _).
    rewrite <- C1 in C. destruct (IH _ _ _ _ _ _ _ _ _ S1 C E2) as (C2 & NF2 & L2 & ns2 & xs2 & S2 & ER2).
    split; [congruence|]. split.
    { intro F. destruct (NF F) as [F1 F2]. destruct (NF2 F2) as [F3 F4]. split; [|exact F4]. intros [I|I]; [congruence|auto]. }
    split; [intro L; rewrite <- C1; apply L2; rewrite C1; exact (proj1 (LL L))|]. exists ns2, xs2. rewrite given_cons, app_assoc. split; [exact S2|]. rewrite ER2, ER1. change (r :: rs') with ([r] ++ rs'). rewrite errors_app. lia.
Qed.
Lemma reads_more : forall a b sizes1 sizes2, buf_reads a (sizes1 ++ sizes2) = b -> exists r1 b1 r2 b2, buf_reads a sizes1 = (r1, b1) /\ buf_reads b1 sizes2 = (r2, b2) /\ b = (r1 ++ r2, b2).
Proof.
  intros a b sizes1. revert a b. induction sizes1 as [|n t IH]; intros a b sizes2 H; cbn [app buf_reads] in *.
  - destruct (buf_reads a sizes2) as [r2 b2] eqn:E. exists [], a, r2, b2. auto.
  - destruct (buf_read a n) as [r a1]. destruct (buf_reads a1 (t ++ sizes2)) as [rs a2] eqn:E. destruct (IH _ _ _ E) as (r1 & b1 & r2 & b2 & E1 & E2 & E3). injection E3 as -> ->.
    exists (r :: r1), b1, r2, b2. rewrite E1. subst b. auto.
Qed.

Theorem buffered_reads : forall nel lsps script cap sizes rs b', (136 <= cap)%nat -> buf_reads (new_bufreader nel lsps script cap) sizes = (rs, b') ->
  exists ns xs, legal_sizes ns /\ reads (new_input nel lsps) script ns = (xs, under b', stream b') /\ bytes_given rs ++ unread b' = encode_all (received xs) /\ errors_given rs = reads_failed xs.
Proof.
  intros nel lsps script cap sizes rs b' C H. destruct (session_reads _ _ _ _ _ _ _ _ _ _ (session_new nel lsps script cap) C H) as (_ & _ & _ & ns & xs & (S1 & S2 & S3 & _) & ER).
  exists ns, xs. cbn in ER. auto.
Qed.
Theorem buffered_no_error : forall nel lsps script cap sizes rs b', (136 <= cap)%nat -> no_fail script -> buf_reads (new_bufreader nel lsps script cap) sizes = (rs, b') -> ~ In BErr rs.
Proof.
  intros nel lsps script cap sizes rs b' C NF H. destruct (session_reads _ _ _ _ _ _ _ _ _ _ (session_new nel lsps script cap) C H) as (_ & F & _). exact (proj1 (F NF)).
Qed.
Theorem buffered_end : forall nel lsps script cap sizes n rs b', (136 <= cap)%nat -> (0 < n)%nat -> buf_reads (new_bufreader nel lsps script cap) (sizes ++ [n]) = (rs ++ [BOk []], b') ->
  exists ns xs j rest, legal_sizes ns /\ reads (new_input nel lsps) script ns = (xs, j, rest) /\ reached_end xs /\ bytes_given rs = encode_all (received xs).
Proof.
  intros nel lsps script cap sizes n rs b' C N0 H. apply reads_more in H. destruct H as (r1 & b1 & r2 & b2 & E1 & E2 & E3).
  destruct (session_reads _ _ _ _ _ _ _ _ _ _ (session_new nel lsps script cap) C E1) as (C1 & _ & _ & ns & xs & S1 & _). cbn [buf_reads] in E2. destruct (buf_read b1 n) as [r b3] eqn:ER. injection E2 as <- <-.
  injection E3 as E3 ->. apply app_inj_tail in E3. destruct E3 as [-> <-].
  destruct (read_spec1 _ _ _ _ _ _ _ _ _ _ S1 ltac:(rewrite C1; exact C) ER) as (_ & _ & _ & ns2 & xs2 & (T1 & T2 & T3 & _) & _ & EN).
  destruct (EN N0 eq_refl) as [RE U]. exists ns2, xs2, (under b3), (stream b3). split; [exact T1|]. split; [exact T2|]. split; [exact RE|]. now rewrite U, !app_nil_r in T3.
Qed.
(** Reads that ask for something get to the end. *)
Lemma ends_go : forall k nel lsps script g b ns xs sizes rs b', (left_over b < k)%nat -> session nel lsps script g b ns xs -> (136 <= capacity b)%nat -> (length (unread b) <= capacity b)%nat ->
  length sizes = k -> Forall (fun n => 0 < n)%nat sizes -> buf_reads b sizes = (rs, b') -> In (BOk []) rs.
Proof.
  induction k as [|k IH]; intros nel lsps script g b ns xs sizes rs b' M S C L LN F H; [lia|]. destruct sizes as [|n sizes]; [discriminate|]. inversion F as [|? ? F1 F2]; subst.
  cbn [buf_reads] in H. destruct (buf_read b n) as [r b1] eqn:E1. destruct (buf_reads b1 sizes) as [rs' b2] eqn:E2. injection H as <- <-.
  destruct (read_spec1 _ _ _ _ _ _ _ _ _ _ S C E1) as (C1 & _ & LL & ns1 & xs1 & S1 & _). destruct (LL L) as [L1 PR]. destruct (PR F1) as [->|P]; [now left|right].
  assert (M1 : (left_over b1 < k)%nat) by lia. assert (LK : length sizes = k) by (cbn in LN; lia). rewrite <- C1 in C, L1.
  exact (IH _ _ _ _ _ _ _ _ _ _ M1 S1 C L1 LK F2 E2).
Qed.
Lemma ends_more : forall sizes b rs b', In (BOk []) rs -> buf_reads b sizes = (rs, b') -> forall more, In (BOk []) (fst (buf_reads b (sizes ++ more))).
Proof.
  intros sizes b rs b' I H more. destruct (buf_reads b (sizes ++ more)) as [x y] eqn:E. destruct (reads_more _ _ _ _ E) as (r1 & b1 & r2 & b2 & E1 & _ & E3). injection E3 as -> _. rewrite H in E1. injection E1 as <- _. cbn. apply in_or_app. now left.
Qed.
Theorem buffered_ends : forall nel lsps script cap, (136 <= cap)%nat -> exists k, forall sizes rs b', (k <= length sizes)%nat -> Forall (fun n => 0 < n)%nat sizes ->
  buf_reads (new_bufreader nel lsps script cap) sizes = (rs, b') -> In (BOk []) rs.
Proof.
  intros nel lsps script cap C. exists (S (left_over (new_bufreader nel lsps script cap))). intros sizes rs b' L F H.
  rewrite <- (firstn_skipn (S (left_over (new_bufreader nel lsps script cap))) sizes) in H.
  destruct (reads_more _ _ _ _ H) as (r1 & b1 & r2 & b2 & E1 & _ & E3). injection E3 as -> _. apply in_or_app. left.
  apply (ends_go (S (left_over (new_bufreader nel lsps script cap))) _ _ _ _ _ _ _ _ _ _ (le_n _) (session_new nel lsps script cap) C ltac:(cbn; lia) (firstn_length_le _ L)
    (Forall_firstn _ _ _ _ F) E1).
Qed.

(** * Lines *)
(** What is still to come, when [cap] bytes are read at a time: the texts between
    failures. *)
Inductive runs (cap : nat) : input -> list event -> list (list N) -> Prop :=
  | runs_end : forall i sc j sc' r, read i sc cap = (r, [], j, sc') -> std_result false r = SOk 0 -> runs cap i sc [[]]
  | runs_text : forall i sc n c cs j sc' r t q, read i sc cap = (r, c :: cs, j, sc') -> std_result false r = SOk n -> runs cap j sc' (t :: q) -> runs cap i sc ((c :: cs ++ t) :: q)
  | runs_again : forall i sc cs j sc' r q, read i sc cap = (r, cs, j, sc') -> std_result false r = SInterrupted -> runs cap j sc' q -> runs cap i sc q
  | runs_failed : forall i sc cs j sc' r q, read i sc cap = (r, cs, j, sc') -> std_result false r = SErr -> runs cap j sc' q -> runs cap i sc ([] :: q).
Lemma runs_cons : forall cap i sc q, runs cap i sc q -> exists t q', q = t :: q'.
Proof. intros cap i sc q R. induction R; eauto. Qed.
Lemma segments_cons : forall rs, exists s r, segments rs = s :: r.
Proof. induction rs as [|[[n s| |] cs] rs (s0 & r & E)]; cbn [segments]; rewrite ?E; eauto. Qed.
Lemma runs_exist : forall cap m i sc D, (136 <= cap)%nat -> (measure i sc < m)%nat -> wf i -> ainv D (abs_of i) ->
  exists k rs j sc', runs cap i sc (segments rs) /\ reads i sc (repeat cap k) = (rs, j, sc') /\ reached_end rs.
Proof.
  intros cap. induction m as [|m IH]; intros i sc D C M W I; [lia|]. destruct (read i sc cap) as [[[r cs] j] sc'] eqn:ER.
  pose proof (std_cases _ _ _ _ _ _ _ W C ER) as SC.
  destruct (read_progress0 _ _ _ _ _ _ _ _ W I (eq_ind_r (fun k => (k <= cap)%nat) C nbs_136) ER) as [[D' I'] PR].
  pose proof (read_wf _ _ _ _ _ _ _ W ER) as W'. assert (DONE : r = ROk 0 End -> exists k rs j0 sc0, runs cap i sc (segments rs) /\ reads i sc (repeat cap k) = (rs, j0, sc0) /\ reached_end rs).
  { intros ->. pose proof (read_count _ _ _ _ _ _ _ _ W ER) as L. symmetry in L. apply str_len_zero in L. subst cs.
    exists 1%nat, [(ROk 0 End, [])], j, sc'. split; [exact (runs_end _ _ _ _ _ _ ER eq_refl)|]. cbn [repeat reads]. rewrite ER. split; [reflexivity|]. exists [], 0%nat, []. reflexivity. }
  destruct PR as [E|PR]; [auto|]. destruct (IH j sc' D' C ltac:(lia) W' I') as (k & rs & j1 & sc1 & R1 & R2 & (rs' & n1 & cs1 & R3)).
  assert (NEXT : runs cap i sc (segments ((r, cs) :: rs)) -> exists k rs j0 sc0, runs cap i sc (segments rs) /\ reads i sc (repeat cap k) = (rs, j0, sc0) /\ reached_end rs).
  { intro R. exists (S k), ((r, cs) :: rs), j1, sc1. split; [exact R|]. cbn [repeat reads]. rewrite ER, R2. split; [reflexivity|]. exists ((r, cs) :: rs'), n1, cs1. now rewrite R3. }
  destruct (std_result false r) as [n| |] eqn:ES.
  - destruct cs as [|c cs]; [apply DONE; now apply SC|]. apply NEXT. destruct (std_ok _ _ _ ES) as [s ->]. cbn [segments]. destruct (segments_cons rs) as (t & q & EG). rewrite EG in *.
    exact (runs_text _ _ _ _ _ _ _ _ _ _ _ ER ES R1).
  - apply NEXT. destruct SC as (-> & s & ->). cbn [segments app]. destruct (segments rs) as [|t q] eqn:EG; [exact (runs_again _ _ _ _ _ _ _ _ ER ES R1)|exact (runs_again _ _ _ _ _ _ _ _ ER ES R1)].
  - apply NEXT. destruct SC as [_ ->]. exact (runs_failed _ _ _ _ _ _ _ _ ER ES R1).
Qed.
(** The bytes still to come before the next failure, and the texts after it. *)
Definition holds (b : bufreader) (bs : list N) (q : list (list N)) : Prop := exists t, runs (capacity b) (under b) (stream b) (t :: q) /\ bs = unread b ++ encode_all t.

Lemma until_some : forall f b bs b', fill_buf b = (BOk bs, b') -> unread b' = bs -> forall p t u, bs ++ u = p ++ LF :: t -> ~ In LF p -> bs <> [] ->
  (exists l, bs = p ++ LF :: l /\ t = l ++ u /\ buf_until (S f) b = Some (p ++ [LF], true, mkbuf (under b') (stream b') (capacity b') l)) \/
  (exists p', ~ In LF p' /\ p = bs ++ p' /\ u = p' ++ LF :: t /\
   buf_until (S f) b = match buf_until f (mkbuf (under b') (stream b') (capacity b') []) with Some (more, ok, e) => Some (bs ++ more, ok, e) | None => None end).
Proof.
  intros f b bs b' F U p t u E NI NE. cbn [buf_until]. rewrite F. destruct bs as [|x bs]; [congruence|]. remember (x :: bs) as l0 eqn:EL. clear x bs EL NE.
  destruct (until_lf_cases l0) as [[H1 H2]|(q & l & -> & H1 & H2)]; rewrite H2.
  - right. assert (K : exists p', p = l0 ++ p').
    { revert p E NI. clear F U H2. induction l0 as [|y l0 IH]; intros p E NI; [now exists p|]. destruct p as [|z p]; [injection E as -> _; exfalso; apply H1; now left|]. injection E as -> E.
      destruct (IH (fun K => H1 (or_intror K)) p E (fun K => NI (or_intror K))) as [p' ->]. now exists p'. }
    destruct K as [p' ->]. exists p'. split; [intro K; apply NI, in_or_app; now right|]. split; [reflexivity|]. rewrite <- app_assoc in E. apply app_inv_head in E. split; [exact E|].
    rewrite not_ends by exact H1. unfold consume. rewrite U, skipn_all. reflexivity.
  - left. assert (K : q = p /\ l ++ u = t).
    { rewrite <- app_assoc in E. cbn [app] in E. revert p E NI H1. clear. induction q as [|y q IH]; intros [|z p] E NI H1; cbn [app] in E.
      - injection E as E. auto.
      - injection E as <- E. exfalso. apply NI. now left.
      - injection E as -> E. exfalso. apply H1. now left.
      - injection E as -> E. destruct (IH p E (fun K => NI (or_intror K)) (fun K => H1 (or_intror K))) as [-> ->]. auto. }
    destruct K as [-> <-]. exists l. split; [reflexivity|]. split; [reflexivity|]. rewrite LineProps.ends_snoc. unfold consume. rewrite U.
    replace (length (p ++ [LF])) with (length (p ++ [LF]) + 0)%nat by lia. replace (p ++ LF :: l) with ((p ++ [LF]) ++ l) by now rewrite <- app_assoc. rewrite skipn_app, skipn_all2 by lia.
    replace (length (p ++ [LF]) + 0 - length (p ++ [LF]))%nat with 0%nat by lia. reflexivity.
Qed.
Lemma until_runs : forall cap i sc q0, runs cap i sc q0 -> forall t0 q p t, q0 = t0 :: q -> encode_all t0 = p ++ LF :: t -> ~ In LF p ->
  exists n b', capacity b' = cap /\ holds b' t q /\ forall fuel, (n <= fuel)%nat -> buf_until fuel (mkbuf i sc cap []) = Some (p ++ [LF], true, b').
Proof.
  intros cap i sc q0 R. induction R as [i sc j sc' r ER ES|i sc m c cs j sc' r t1 q1 ER ES R IH|i sc cs j sc' r q1 ER ES R IH|i sc cs j sc' r q1 ER ES R IH]; intros t0 q p t EQ E NI.
  - injection EQ as <- <-. destruct p; discriminate.
  - injection EQ as <- <-. assert (F : fill_buf (mkbuf i sc cap []) = (BOk (encode_all (c :: cs)), mkbuf j sc' cap (encode_all (c :: cs)))).
    { unfold fill_buf, direct. cbn [unread under stream capacity]. rewrite ER, ES. reflexivity. }
    assert (NE : encode_all (c :: cs) <> []) by (intro K; apply encode_all_nil in K; discriminate).
    change (c :: cs ++ t1) with ((c :: cs) ++ t1) in E. rewrite encode_all_app in E.
    destruct (until_some 0 _ _ _ F eq_refl p t _ E NI NE) as [(l & E1 & E2 & _)|(p' & P1 & P2 & P3 & _)].
    + exists 1%nat, (mkbuf j sc' cap l). split; [reflexivity|]. split; [exists t1; auto|]. intros [|f] L; [lia|].
      destruct (until_some f _ _ _ F eq_refl p t _ E NI NE) as [(l' & E1' & E2' & ->)|(p' & P1 & P2 & P3 & _)].
      * cbn [under stream capacity]. rewrite E1 in E1'. apply app_inv_head in E1'. injection E1' as <-. reflexivity.
      * exfalso. rewrite P2 in NI. apply NI. rewrite E1. apply in_or_app. left. apply in_or_app. right. now left.
    + destruct (IH _ _ p' t eq_refl P3 P1) as (n & b' & C & H & K). exists (S n), b'. split; [exact C|]. split; [exact H|]. intros [|f] L; [lia|].
      destruct (until_some f _ _ _ F eq_refl p t _ E NI NE) as [(l' & E1' & _)|(p2 & _ & P2' & _ & ->)].
      * exfalso. rewrite P2 in NI. apply NI. rewrite E1'. apply in_or_app. left. apply in_or_app. right. now left.
      * cbn [under stream capacity]. rewrite K by lia. rewrite P2. now rewrite <- app_assoc.
  - destruct (IH _ _ p t EQ E NI) as (n & b' & C & H & K). exists (S n), b'. split; [exact C|]. split; [exact H|]. intros [|f] L; [lia|].
    cbn [buf_until]. unfold fill_buf, direct. cbn [unread under stream capacity]. rewrite ER, ES. apply K. lia.
  - injection EQ as <- <-. destruct p; discriminate.
Qed.
Lemma until_line : forall b p t q, holds b (p ++ LF :: t) q -> ~ In LF p ->
  exists n b', holds b' t q /\ forall fuel, (n <= fuel)%nat -> buf_until fuel b = Some (p ++ [LF], true, b').
Proof.
  intros [i sc cap u] p t q (t0 & R & E) NI. cbn [capacity under stream unread] in *. destruct u as [|x u].
  - cbn [app] in E. destruct (until_runs _ _ _ _ R _ _ p t eq_refl (eq_sym E) NI) as (n & b' & _ & H & K). eauto.
  - remember (x :: u) as us eqn:EU. assert (NE : us <> []) by (subst; discriminate).
    assert (F : fill_buf (mkbuf i sc cap us) = (BOk us, mkbuf i sc cap us)) by (subst us; reflexivity). clear x u EU.
    destruct (until_some 0 _ _ _ F eq_refl p t _ (eq_sym E) NI NE) as [(l & E1 & E2 & _)|(p' & P1 & P2 & P3 & _)].
    + exists 1%nat, (mkbuf i sc cap l). split; [exists t0; auto|]. intros [|f] L; [lia|].
      destruct (until_some f _ _ _ F eq_refl p t _ (eq_sym E) NI NE) as [(l' & E1' & E2' & ->)|(p' & P1 & P2 & P3 & _)].
      * cbn [under stream capacity]. rewrite E1 in E1'. apply app_inv_head in E1'. injection E1' as <-. reflexivity.
      * exfalso. rewrite P2 in NI. apply NI. rewrite E1. apply in_or_app. left. apply in_or_app. right. now left.
    + destruct (until_runs _ _ _ _ R _ _ p' t eq_refl P3 P1) as (n & b' & _ & H & K). exists (S n), b'. split; [exact H|]. intros [|f] L; [lia|].
      destruct (until_some f _ _ _ F eq_refl p t _ (eq_sym E) NI NE) as [(l' & E1' & _)|(p2 & _ & P2' & _ & ->)].
      * exfalso. rewrite P2 in NI. apply NI. rewrite E1'. apply in_or_app. left. apply in_or_app. right. now left.
      * cbn [under stream capacity]. rewrite K by lia. rewrite P2. now rewrite <- app_assoc.
Qed.
(** Without a line end: the rest up to the failure, or to the end. *)
Lemma until_part : forall f b bs b', fill_buf b = (BOk bs, b') -> unread b' = bs -> ~ In LF bs -> bs <> [] ->
  buf_until (S f) b = match buf_until f (mkbuf (under b') (stream b') (capacity b') []) with Some (more, ok, e) => Some (bs ++ more, ok, e) | None => None end.
Proof.
  intros f b bs b' F U NI NE. cbn [buf_until]. rewrite F. destruct bs as [|x bs]; [congruence|]. rewrite until_lf_rest by exact NI. rewrite not_ends by exact NI. unfold consume. rewrite U, skipn_all. reflexivity.
Qed.
Lemma until_runs_rest : forall cap i sc q0, runs cap i sc q0 -> forall t0 q, q0 = t0 :: q -> ~ In LF (encode_all t0) ->
  exists n b', (match q with [] => True | t :: q' => holds b' (encode_all t) q' end) /\
    forall fuel, (n <= fuel)%nat -> buf_until fuel (mkbuf i sc cap []) = Some (encode_all t0, match q with [] => true | _ => false end, b').
Proof.
  intros cap i sc q0 R. induction R as [i sc j sc' r ER ES|i sc m c cs j sc' r t1 q1 ER ES R IH|i sc cs j sc' r q1 ER ES R IH|i sc cs j sc' r q1 ER ES R IH]; intros t0 q EQ NI.
  - injection EQ as <- <-. exists 1%nat, (mkbuf j sc' cap []). split; [exact Logic.I|]. intros [|f] L; [lia|]. cbn [buf_until]. unfold fill_buf, direct. cbn [unread under stream capacity]. rewrite ER, ES. reflexivity.
  - injection EQ as <- <-. assert (F : fill_buf (mkbuf i sc cap []) = (BOk (encode_all (c :: cs)), mkbuf j sc' cap (encode_all (c :: cs)))).
    { unfold fill_buf, direct. cbn [unread under stream capacity]. rewrite ER, ES. reflexivity. }
    assert (NE : encode_all (c :: cs) <> []) by (intro K; apply encode_all_nil in K; discriminate).
    change (c :: cs ++ t1) with ((c :: cs) ++ t1) in *. rewrite encode_all_app in *. assert (N1 : ~ In LF (encode_all (c :: cs)) /\ ~ In LF (encode_all t1)) by (split; intro K; apply NI, in_or_app; auto). destruct N1 as [N1 N2].
    destruct (IH _ _ eq_refl N2) as (n & b' & H & K). exists (S n), b'. split; [exact H|]. intros [|f] L; [lia|]. rewrite (until_part f _ _ _ F eq_refl N1 NE). cbn [under stream capacity]. rewrite K by lia. reflexivity.
  - destruct (IH _ _ EQ NI) as (n & b' & H & K). exists (S n), b'. split; [exact H|]. intros [|f] L; [lia|].
    cbn [buf_until]. unfold fill_buf, direct. cbn [unread under stream capacity]. rewrite ER, ES. apply K. lia.
  - injection EQ as <- <-. exists 1%nat, (mkbuf j sc' cap []). destruct (runs_cons _ _ _ _ R) as (t & q & ->).
    split; [exists t; split; [exact R|reflexivity]|]. intros [|f] L; [lia|]. cbn [buf_until]. unfold fill_buf, direct. cbn [unread under stream capacity]. rewrite ER, ES. reflexivity.
Qed.
Lemma until_rest : forall b bs q, holds b bs q -> ~ In LF bs ->
  exists n b', (match q with [] => True | t :: q' => holds b' (encode_all t) q' end) /\ forall fuel, (n <= fuel)%nat -> buf_until fuel b = Some (bs, match q with [] => true | _ => false end, b').
Proof.
  intros [i sc cap u] bs q (t0 & R & E) NI. cbn [capacity under stream unread] in *. subst bs. assert (N1 : ~ In LF u /\ ~ In LF (encode_all t0)) by (split; intro K; apply NI, in_or_app; auto). destruct N1 as [N1 N2].
  destruct (until_runs_rest _ _ _ _ R _ _ eq_refl N2) as (n & b' & H & K). destruct u as [|x u]; [eauto|]. exists (S n), b'. split; [exact H|]. intros [|f] L; [lia|].
  rewrite (until_part f (mkbuf i sc cap (x :: u)) (x :: u) _ eq_refl eq_refl N1) by discriminate. cbn [under stream capacity]. rewrite K by lia. reflexivity.
Qed.

Lemma keep_line : forall debug p t it, ~ In LF p -> next_line debug (p ++ LF :: t) = Some (Some it, t) -> exists rest, next_line_io debug (keep (p ++ [LF]) []) = Some (Some it, rest).
Proof.
  intros debug p t it NI H. unfold next_line, read_text_line, read_line in H. rewrite until_lf_line in H by exact NI. unfold next_line_io, read_text_line_io, read_line_io.
  assert (K : keep (p ++ [LF]) [] = [Bytes (p ++ [LF])]) by (unfold keep; destruct (p ++ [LF]) eqn:E; [destruct p; discriminate|reflexivity]). rewrite K. clear K.
  assert (U : read_until [Bytes (p ++ [LF])] = (p ++ [LF], true, [])).
  { cbn [read_until]. destruct (p ++ [LF]) as [|x l] eqn:E; [destruct p; discriminate|]. rewrite <- E. rewrite until_lf_line by exact NI. now rewrite LineProps.ends_snoc. }
  rewrite U. destruct (decode (p ++ [LF])) as [s [|y ys]]; [|injection H as <-; eauto]. destruct (is_basic_text ([] ++ s)); [|injection H as <-; eauto].
  destruct (length (p ++ [LF])); [discriminate|]. destruct (debug && _); [discriminate|]. cbv zeta in *. destruct (debug && _); [discriminate|]. destruct (opt_all _ _); injection H as <-; eauto.
Qed.
Lemma keep_failed : forall debug p, ~ In LF p -> exists rest, next_line_io debug (keep p [Failure]) = Some (Some LineErr, rest).
Proof.
  intros debug p NI. unfold next_line_io, read_text_line_io, read_line_io. assert (U : exists rest, read_until (keep p [Failure]) = (p, false, rest)).
  { destruct p as [|x p]; [now exists []|]. unfold keep. cbn [read_until]. rewrite until_lf_rest, not_ends by exact NI. rewrite app_nil_r. eexists. reflexivity. }
  destruct U as [rest ->]. destruct (decode p) as [s [|y ys]]; eauto.
Qed.
Definition next_is (debug : bool) (p : list N) (it : item) : Prop := forall t, next_line debug (p ++ LF :: t) = Some (Some it, t).
Lemma next_any : forall debug p, ~ In LF p -> exists it, next_is debug p it /\ exists rest, next_line_io debug (keep (p ++ [LF]) []) = Some (Some it, rest).
Proof.
  intros debug p FP. destruct (next_line_spec debug p [] FP) as (it & N1 & _). exists it. split; [|exact (keep_line debug p [] it FP N1)].
  intro t. unfold next_line, read_text_line, read_line in *. rewrite until_lf_line in * by exact FP. destruct (decode (p ++ [LF])) as [s [|y ys]]; [|injection N1 as <-; reflexivity].
  destruct (is_basic_text ([] ++ s)); [|injection N1 as <-; reflexivity]. destruct (length (p ++ [LF])); [discriminate|]. destruct (debug && _); [discriminate|]. cbv zeta in *. destruct (debug && _); [discriminate|].
  destruct (opt_all _ _); injection N1 as <-; reflexivity.
Qed.
(** The lines up to the next failure, or to the end. *)
Lemma buf_lines : forall debug ps l b q (Q : list item -> Prop), Forall (fun p => ~ In LF p) ps -> ~ In LF l -> holds b (lines_of ps ++ l) q ->
  (forall b', holds b' l q -> exists n its, Q its /\ forall m fuel, (n <= m)%nat -> (n <= fuel)%nat -> buf_text_lines m fuel debug b' = Some its) ->
  exists n its its2, Forall2 (next_is debug) ps its /\ Q its2 /\ forall m fuel, (n <= m)%nat -> (n <= fuel)%nat -> buf_text_lines m fuel debug b = Some (its ++ its2).
Proof.
  intros debug ps l b q Q F NL. revert b. induction F as [|p ps FP FS IH]; intros b H NEXT.
  - destruct (NEXT b H) as (n & its & HQ & K). exists n, [], its. auto.
  - unfold lines_of in H. cbn [map concat] in H. rewrite <- !app_assoc in H. cbn [app] in H. destruct (until_line _ p _ q H FP) as (n & b' & H' & K).
    destruct (IH b' H' NEXT) as (n2 & its & its2 & F2 & HQ & K2). destruct (next_any debug p FP) as (it & N1 & rest & N2). exists (S (n + n2)), (it :: its), its2. split; [now constructor|]. split; [exact HQ|].
    intros [|m] fuel L1 L2; [lia|]. cbn [buf_text_lines app]. unfold buf_next_line. rewrite K by lia. rewrite N2. rewrite K2 by lia. reflexivity.
Qed.
Lemma all_items_det : forall debug ps its q f, Forall2 (next_is debug) ps its -> (length (lines_of ps) <= f)%nat -> q = [] ->
  all_items (next_line debug) f (lines_of ps ++ q) = Some its.
Proof.
  intros debug ps its q f F. revert f. induction F as [|p it ps its H F IH]; intros f L ->.
  - destruct f; reflexivity.
  - unfold lines_of in *. cbn [map concat] in *. rewrite <- !app_assoc in *. cbn [app] in *. destruct f as [|f]; [rewrite !app_length in L; cbn in L; lia|]. cbn [all_items].
    change 0xA with LF in *. rewrite H. rewrite IH; [reflexivity| |reflexivity]. rewrite app_length in L. cbn [length] in L. lia.
Qed.
Lemma lines_items : forall debug ps its, Forall2 (next_is debug) ps its -> text_lines debug (lines_of ps) = Some its.
Proof. intros debug ps its F. unfold text_lines. rewrite <- (app_nil_r (lines_of ps)) at 2. now apply all_items_det. Qed.
Lemma lines_ended : forall ps, lines_of ps = [] \/ ended (lines_of ps).
Proof.
  intro ps. destruct ps as [|p ps] using rev_ind; [now left|right]. unfold lines_of. rewrite map_app, concat_app. cbn [map concat]. rewrite app_nil_r, app_assoc. now exists (concat (map (fun p => p ++ [0xA]) ps) ++ p).
Qed.
Definition all_items_of (debug : bool) (segs : list (list N)) (its : list item) : Prop :=
  exists ls last, Forall2 (items_for debug) segs (ls ++ [last]) /\ its = concat (map (fun l => l ++ [LineErr]) ls) ++ last.
Lemma segments_items : forall debug q t0 b, holds b (encode_all t0) q -> line_terminated (last (t0 :: q) []) ->
  exists n its, all_items_of debug (t0 :: q) its /\ forall m fuel, (n <= m)%nat -> (n <= fuel)%nat -> buf_text_lines m fuel debug b = Some its.
Proof.
  intros debug. induction q as [|t q IH]; intros t0 b H LT; destruct (lines_exist _ (encode_all t0) (le_n _)) as (ps & l & E & F & NL); rewrite E in H.
  - assert (QN : l = []).
    { destruct l as [|x l]; [reflexivity|exfalso]. destruct LT as [Z|[u Z]]; cbn [last] in Z; subst t0; [symmetry in E; apply app_eq_nil in E; destruct E; discriminate|]. rewrite encode_snoc_LF in E.
      destruct (exists_last (l := x :: l) ltac:(discriminate)) as (q' & y & EQ2). rewrite EQ2 in *. rewrite app_assoc in E. apply app_inj_tail in E. destruct E as [_ <-]. apply NL, in_or_app. right. now left. }
    subst l. destruct (buf_lines debug ps [] b [] (fun its => its = []) F NL H) as (n & its & its2 & F2 & -> & K).
    { intros b' H'. destruct (until_rest _ _ _ H' ltac:(intros [])) as (n & b2 & _ & K). exists (S n), []. split; [reflexivity|]. intros [|m] fuel L1 L2; [lia|]. cbn [buf_text_lines]. unfold buf_next_line. rewrite K by lia. reflexivity. }
    exists n, its. rewrite app_nil_r in K. split; [|exact K]. exists [], its. split; [|reflexivity]. constructor; [|constructor]. exists (lines_of ps), []. split; [exact E|]. split; [intros []|]. split; [apply lines_ended|now apply lines_items].
  - destruct (buf_lines debug ps l b (t :: q) (fun its => exists its2, its = LineErr :: its2 /\ all_items_of debug (t :: q) its2) F NL H) as (n & its & its2 & F2 & (its3 & -> & (ls & la & A1 & A2)) & K).
    { intros b' H'. destruct (until_rest _ _ _ H' NL) as (n & b2 & H2 & K). destruct (IH t b2 H2 LT) as (n2 & its & A & K2). exists (S (n + n2)), (LineErr :: its). split; [eauto|].
      intros [|m] fuel L1 L2; [lia|]. cbn [buf_text_lines]. unfold buf_next_line. rewrite K by lia. destruct (keep_failed debug l NL) as [rest ->]. rewrite K2 by lia. reflexivity. }
    exists n, (its ++ LineErr :: its3). split; [|exact K]. exists (its :: ls), la. split.
    + cbn [app]. constructor; [|exact A1]. exists (lines_of ps), l. split; [exact E|]. split; [exact NL|]. split; [apply lines_ended|now apply lines_items].
    + subst its3. cbn [map concat]. rewrite <- !app_assoc. reflexivity.
Qed.
(** The last text is the end of what the reads delivered. *)
Lemma segments_last : forall rs, exists u, delivered rs = u ++ last (segments rs) [] /\ (forall s, segments rs = [s] -> u = []).
Proof.
  induction rs as [|[x cs] rs (u & E & N)]; [now exists []|]. change (delivered ((x, cs) :: rs)) with (cs ++ delivered rs). rewrite E. destruct (segments_cons rs) as (s0 & r & ES).
  destruct x as [n s| |]; cbn [segments]; rewrite ES in *.
  - destruct r as [|s1 r]; [rewrite (N _ eq_refl) in *; exists []; cbn [last app]; auto|]. exists (cs ++ u). split; [now rewrite <- app_assoc|discriminate].
  - exists (cs ++ u). split; [now rewrite <- app_assoc|discriminate].
  - exists (cs ++ u). split; [now rewrite <- app_assoc|discriminate].
Qed.
Theorem buffered_lines_any : forall nel lsps script cap debug, (136 <= cap)%nat ->
  exists k xs j rest n its, reads (new_input nel lsps) script (repeat cap k) = (xs, j, rest) /\ reached_end xs /\
  (exists ls last, Forall2 (items_for debug) (segments xs) (ls ++ [last]) /\ its = concat (map (fun l => l ++ [LineErr]) ls) ++ last) /\
  forall m fuel, (n <= m)%nat -> (n <= fuel)%nat -> buf_text_lines m fuel debug (new_bufreader nel lsps script cap) = Some its.
Proof.
  intros nel lsps script cap debug C. destruct (runs_exist cap _ (new_input nel lsps) script [] C (le_n _) (wf_new _ _) (new_ainv _ _)) as (k & rs & j & sc' & RU & R & RE).
  destruct (segments_cons rs) as (t0 & q & ES). destruct (session_is_text_buffers _ _ _ _ _ _ _ R RE) as [_ LT]. destruct (segments_last rs) as (u & E & _). rewrite E, ES in LT. rewrite ES in RU.
  assert (LT2 : line_terminated (last (t0 :: q) [])).
  { destruct (last (t0 :: q) []) as [|c x] eqn:EL using rev_ind; [now left|]. right. destruct LT as [Z|[v Z]]; [apply app_eq_nil in Z; destruct Z as [_ Z]; apply app_eq_nil in Z; destruct Z; discriminate|].
    rewrite app_assoc in Z. apply app_inj_tail in Z. destruct Z as [_ ->]. eauto. }
  destruct (segments_items debug q t0 (new_bufreader nel lsps script cap)) as (n & its & A & K); [exists t0; split; [exact RU|reflexivity]|exact LT2|].
  exists k, rs, j, sc', n, its. rewrite ES. split; [exact R|]. split; [exact RE|]. split; [exact A|exact K].
Qed.
Lemma segments_received : forall sizes i sc rs j sc', wf i -> no_fail sc -> reads i sc sizes = (rs, j, sc') -> legal_sizes sizes -> segments rs = [received rs].
Proof.
  induction sizes as [|b sizes IH]; intros i sc rs j sc' W NF H L; cbn [reads] in H; [injection H as <- <- <-; reflexivity|]. inversion L as [|? ? L1 L2]; subst.
  destruct (read i sc b) as [[[r cs] i1] sc1] eqn:ER. destruct (reads i1 sc1 sizes) as [[rs' j'] sc2] eqn:ERS. injection H as <- <- <-.
  destruct (read_no_fail _ _ _ _ _ _ _ W NF ER) as (NE & _ & NF'). pose proof (std_cases _ _ _ _ _ _ _ W L1 ER) as SC. pose proof (IH _ _ _ _ _ (read_wf _ _ _ _ _ _ _ W ER) NF' ERS L2) as K.
  destruct r as [n s| |]; [|cbn in SC; destruct SC; congruence|congruence]. cbn [segments]. rewrite K. reflexivity.
Qed.
Theorem buffered_lines : forall nel lsps script cap t debug, (136 <= cap)%nat -> no_fail script -> gives nel lsps script t ->
  exists n its, text_lines debug (encode_all t) = Some its /\ forall m fuel, (n <= m)%nat -> (n <= fuel)%nat -> buf_text_lines m fuel debug (new_bufreader nel lsps script cap) = Some its.
Proof.
  intros nel lsps script cap t debug C NF (sizes & rs & j & rest & R & RE & D).
  destruct (buffered_lines_any nel lsps script cap debug C) as (k & xs & j' & sc' & n & its & R' & RE' & (ls & la & F & EI) & K). exists n, its. split; [|exact K].
  destruct (sizes_do_not_matter_received _ _ _ _ _ _ _ _ _ _ _ R R' NF RE) as [_ EQ]. specialize (EQ RE'). rewrite <- (received_delivered _ _ _ _ _ _ (wf_new _ _) NF R) in D.
  rewrite (segments_received _ _ _ _ _ _ (wf_new _ _) NF R') in F by (apply Forall_forall; intros x X; apply repeat_spec in X; subst x; exact C). rewrite <- EQ, D in F.
  assert (ls = []) by (destruct ls as [|l1 [|l2 ls]]; [reflexivity| |]; inversion F as [|? ? ? ? _ F2]; subst; inversion F2). subst ls. cbn [app map concat] in *. subst its.
  inversion F as [|? ? ? ? (u & l & E & NL & UE & TL) _]; subst. destruct (session_is_text _ _ _ _ _ _ _ R NF RE) as [_ LT].
  assert (LN : l = []).
  { destruct l as [|x l]; [reflexivity|exfalso]. destruct LT as [Z|[v Z]]; rewrite Z in E; [symmetry in E; apply app_eq_nil in E; destruct E; discriminate|]. change 0xA with LF in E. rewrite encode_snoc_LF in E.
    destruct (exists_last (l := x :: l) ltac:(discriminate)) as (q' & y & EQ2). rewrite EQ2 in *. rewrite app_assoc in E. apply app_inj_tail in E. destruct E as [_ <-]. apply NL, in_or_app. right. now left. }
  subst l. rewrite app_nil_r in E. now rewrite E.
Qed.

(** A buffer that is too short. *)
Theorem buffered_short : forall nel lsps script cap sizes, (cap < 136)%nat -> Forall (fun n => n < 136)%nat sizes ->
  buf_reads (new_bufreader nel lsps script cap) sizes = (map (fun _ => BErr) sizes, new_bufreader nel lsps script cap).
Proof.
  intros nel lsps script cap sizes C F.
  assert (D : forall n, (n < 136)%nat -> direct (new_bufreader nel lsps script cap) n = (BErr, new_bufreader nel lsps script cap)).
  { intros n L. unfold direct, read. cbn [new_bufreader under stream capacity unread]. rewrite nbs_136. destruct (Nat.ltb_spec n 136); [reflexivity|lia]. }
  induction F as [|n sizes L F IH]; [reflexivity|]. cbn [buf_reads map]. unfold buf_read. cbn [new_bufreader unread capacity]. fold (new_bufreader nel lsps script cap).
  destruct (true && (cap <=? n)%nat); [rewrite D by exact L|unfold fill_buf; cbn [new_bufreader unread capacity]; fold (new_bufreader nel lsps script cap); rewrite D by exact C]; rewrite IH; reflexivity.
Qed.
