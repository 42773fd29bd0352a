(** A line server that waits for its peer. *)
From Coq Require Import NArith Arith List Bool Lia ZifyBool ZifyNat ZifyN.
From Verif Require Import Base Ucd UcdTables Norm Chars TextTables TextUtils UcdFacts NormFacts CharFacts DocTable SpecText TextFacts PipelineFacts DocFacts IsoFacts
  Utf8 Utf8Facts Input Output ReadFacts ReadInv ReadSession SpecRead ScalarFacts ReadChunk SpecEscape EscapeFacts EscapeRun ReadProps KeepFacts ReadPieces SpecConv ConvFacts ReadMore
  SpecWrite WriteFacts WriteProps Strings StringFacts EdgeFacts Copy CopyProps ExactProps StdIo SpecStd CutProps StdProps SizeProps SpecCat Lines SpecLine LineProps LineIo StdBuf SpecBuf BufProps Duplex SpecDuplex DuplexProps DuplexBuf SpecDuplexBuf DuplexBufProps BufAccount SpecPush PushProps SpecPrompt PromptProps SpecAsk AskProps Serve SpecServe ServeProps LineEnd BoundTables.
Import ListNotations.
Local Open Scope N_scope.
Arguments N.add : simpl never.
Arguments N.leb : simpl never.
Arguments N.ltb : simpl never.
Arguments N.eqb : simpl never.
Local Opaque pipeline.

Lemma delivered_prefix : forall nel lsps used rest sizes rs i t, reads (new_input nel lsps) (used ++ rest) sizes = (rs, i, rest) -> rest <> [] -> gives nel lsps used t -> exists held, t = delivered rs ++ held.
Proof.
  intros nel lsps used rest sizes rs i t H NE G. apply gives_converted in G. destruct (reads_spec _ _ _ _ _ _ (wf_new nel lsps) H) as (W & _ & _ & evs & new & TK & FD & AV).
  destruct (abs_new nel lsps) as [A0 V0]. rewrite A0 in FD. rewrite V0 in AV. cbn [app nel_compat lsps_compat new_input] in FD, AV. subst new.
  destruct (took_suffix _ _ _ TK) as [EE|(u & E1 & E2 & E3)].
  - exfalso. destruct (took_end _ _ _ TK EE) as (k & _ & K). now apply NE.
  - apply app_inv_tail in E1. subst u. unfold converted_stream in G. rewrite E2, feed_app, FD in G. cbn [feed] in G. destruct (absorb nel lsps (abs_of i) [] End) as [n2 a2]. cbn [fst] in G.
    rewrite <- !app_assoc in G. eauto.
Qed.
(** * What was read *)
Definition fine (x : read_result * list N) : Prop := exists n s, fst x = ROk n s.
Lemma fine_delivered : forall xs, Forall fine xs -> received xs = delivered xs.
Proof. induction 1 as [|[r cs] xs (n & s & E) F IH]; [reflexivity|]. cbn [fst] in E. subst r. unfold received, delivered in *. cbn [flat_map fst snd]. now rewrite IH. Qed.
Definition went (b b' : bufreader) (bs : list N) : Prop :=
  wf (under b') /\ capacity b' = capacity b /\ exists n xs, reads (under b) (stream b) (repeat (capacity b) n) = (xs, under b', stream b') /\ Forall fine xs /\ unread b ++ encode_all (received xs) = bs ++ unread b'.
Lemma went_refl : forall b, wf (under b) -> went b b [].
Proof. intros b W. split; [exact W|]. split; [reflexivity|]. exists O, []. split; [reflexivity|]. split; [constructor|]. cbn. apply app_nil_r. Qed.
Lemma went_trans : forall a b c x y, went a b x -> went b c y -> went a c (x ++ y).
Proof.
  intros a b c x y (W & C & n & xs & R & F & E) (W2 & C2 & m & ys & R2 & F2 & E2). split; [exact W2|]. split; [congruence|]. exists (n + m)%nat, (xs ++ ys). rewrite repeat_app, reads_more, R, <- C, R2. split; [reflexivity|].
  split; [now apply Forall_app|]. rewrite received_more, encode_all_app, app_assoc, E, <- !app_assoc, E2. reflexivity.
Qed.
Lemma went_consume : forall b l t, wf (under b) -> unread b = l ++ t -> went b (consume (length l) b) l.
Proof.
  intros b l t W E. split; [exact W|]. split; [reflexivity|]. exists O, []. split; [reflexivity|]. split; [constructor|]. unfold consume. cbn [unread received flat_map encode_all]. rewrite app_nil_r, E, skipn_app, skipn_all, Nat.sub_diag. reflexivity.
Qed.
(** At the end of the stream *)
Lemma read_end : forall i sc b r cs j sc', wf i -> read i sc b = (r, cs, j, sc') -> r = ROk 0 End -> sc' = [].
Proof.
  intros i sc b r cs j sc' W H ->. unfold read in H. destruct (Nat.ltb b _); [discriminate|]. destruct (drain b b i) as [[cs1 e1] i1]. destruct (negb e1); [discriminate|]. destruct (negb (is_active (pending i1))); [discriminate|].
  destruct (inner_read sc) as [[[raw s]|] sc1] eqn:EI; [|discriminate]. destruct (drain _ _ _) as [[cs2 e2] i3]. destruct e2; [|discriminate]. injection H as E1 E2 _ _ <-. subst s.
  destruct sc as [|[c s|] t]; cbn in EI; [now injection EI as _ <-| |discriminate]. destruct s; try discriminate; now injection EI as _ <-.
Qed.
Lemma read_nil : forall i b r cs j sc', wf i -> read i [] b = (r, cs, j, sc') -> r <> RErr /\ sc' = [].
Proof.
  intros i b r cs j sc' W H. unfold read in H. destruct (Nat.ltb b _); [injection H as <- _ _ <-; split; [discriminate|reflexivity]|]. destruct (drain b b i) as [[cs1 e1] i1].
  destruct (negb e1); [injection H as <- _ _ <-; split; [discriminate|reflexivity]|]. destruct (negb (is_active (pending i1))); [injection H as <- _ _ <-; split; [discriminate|reflexivity]|].
  cbn [inner_read] in H. destruct (drain _ _ _) as [[cs2 e2] i3]. destruct e2; injection H as <- _ _ <-; (split; [discriminate|reflexivity]).
Qed.
Lemma fill_went : forall b r b', wf (under b) -> (136 <= capacity b)%nat -> fill_buf b = (r, b') ->
  match r with
  | BOk bs => went b b' [] /\ bs = unread b' /\ (bs = [] -> stream b' = [])
  | BInterrupted => went b b' []
  | BErr => unread b = [] /\ unread b' = [] /\ exists cs, read (under b) (stream b) (capacity b) = (RErr, cs, under b', stream b')
  end.
Proof.
  intros [i sc cap [|x u]] r b' W C H; [|injection H as <- <-; split; [now apply went_refl|split; [reflexivity|discriminate]]]. unfold fill_buf, direct in H. cbn [unread under stream capacity] in *.
  destruct (read i sc cap) as [[[q cs] j] sc'] eqn:ER. pose proof (std_cases _ _ _ _ _ _ _ W C ER) as SC. pose proof (read_wf _ _ _ _ _ _ _ W ER) as W'.
  assert (T : forall v, fine (q, cs) -> encode_all (received [(q, cs)]) = v -> went (mkbuf i sc cap []) (mkbuf j sc' cap v) []).
  { intros v FV V. split; [exact W'|]. split; [reflexivity|]. exists 1%nat, [(q, cs)]. cbn [repeat reads capacity under stream unread app]. rewrite ER. split; [reflexivity|]. split; [constructor; [exact FV|constructor]|exact V]. }
  destruct (std_result false q) as [m| |] eqn:EQ; injection H as <- <-; cbn [under stream capacity unread].
  - destruct SC as [E1 E2]. split; [apply T; [|now rewrite E1]|split; [reflexivity|]].
    + destruct q as [n s| |]; [now exists n, s|discriminate|discriminate].
    + intro Z. apply (read_end _ _ _ _ _ _ _ W ER), E2. destruct cs as [|c cs]; [reflexivity|]. exfalso. cbn in Z. unfold encode in Z. destruct (c <? _); [discriminate|]. destruct (c <? _); [discriminate|]. destruct (c <? _); discriminate.
  - destruct SC as (-> & s & ->). apply T; [now exists 0%nat, s|reflexivity].
  - destruct SC as [_ ->]. split; [reflexivity|]. split; [reflexivity|]. eauto.
Qed.
Lemma until_went : forall fuel b l b', wf (under b) -> (136 <= capacity b)%nat -> buf_until fuel b = Some (l, true, b') ->
  went b b' l /\ ((exists u, l = u ++ [LF] /\ ~ In LF u) \/ stream b' = []).
Proof.
  induction fuel as [|f IH]; intros b l b' W C H; [discriminate|]. cbn [buf_until] in H. destruct (fill_buf b) as [r b1] eqn:EF. pose proof (fill_went _ _ _ W C EF) as T. destruct r as [[|x bs]| |].
  - destruct T as (T & _ & S). injection H as <- <-. split; [exact T|]. right. now apply S.
  - destruct T as (T & U & _). pose proof T as (W1 & C1 & _). rewrite <- C1 in C. destruct (until_lf_cases (x :: bs)) as [[N1 E1]|(p & t & E0 & N1 & E1)]; rewrite E1 in H.
    + rewrite not_ends in H by exact N1. destruct (buf_until f (consume (length (x :: bs)) b1)) as [[[more ok] e]|] eqn:EU; [|discriminate]. injection H as <- -> ->.
      pose proof (went_consume b1 (x :: bs) [] W1 ltac:(rewrite app_nil_r; congruence)) as T2. destruct (IH _ _ _ (W1 : wf (under (consume (length (x :: bs)) b1))) C EU) as [T3 S].
      split; [exact (went_trans _ _ _ _ _ (went_trans _ _ _ _ _ T T2) T3)|]. destruct S as [(u & -> & NU)|S]; [left|now right]. exists ((x :: bs) ++ u). split; [now rewrite app_assoc|]. intro K. apply in_app_or in K. tauto.
    + rewrite LineProps.ends_snoc in H. injection H as <- <-. split; [|left; eauto].
      apply (went_trans _ _ _ [] (p ++ [LF]) T). apply (went_consume b1 (p ++ [LF]) t W1). rewrite <- U, E0, <- app_assoc. reflexivity.
  - pose proof T as (W1 & C1 & _). rewrite <- C1 in C. destruct (IH _ _ _ W1 C H) as [T2 S]. split; [exact (went_trans _ _ _ [] _ T T2)|exact S].
  - discriminate.
Qed.
Lemma until_failed : forall fuel b l b', wf (under b) -> (136 <= capacity b)%nat -> buf_until fuel b = Some (l, false, b') ->
  exists b0 cs, went b b0 l /\ unread b0 = [] /\ ~ In LF l /\ read (under b0) (stream b0) (capacity b) = (RErr, cs, under b', stream b').
Proof.
  induction fuel as [|f IH]; intros b l b' W C H; [discriminate|]. cbn [buf_until] in H. destruct (fill_buf b) as [r b1] eqn:EF. pose proof (fill_went _ _ _ W C EF) as T. destruct r as [[|x bs]| |].
  - discriminate.
  - destruct T as (T & U & _). pose proof T as (W1 & C1 & _). rewrite <- C1 in C. destruct (until_lf_cases (x :: bs)) as [[N1 E1]|(p & t & E0 & N1 & E1)]; rewrite E1 in H; [|rewrite LineProps.ends_snoc in H; discriminate].
    rewrite not_ends in H by exact N1. destruct (buf_until f (consume (length (x :: bs)) b1)) as [[[more ok] e]|] eqn:EU; [|discriminate]. injection H as <- -> ->.
    pose proof (went_consume b1 (x :: bs) [] W1 ltac:(rewrite app_nil_r; congruence)) as T2. destruct (IH _ _ _ (W1 : wf (under (consume (length (x :: bs)) b1))) C EU) as (b0 & cs & T3 & U3 & N3 & R3).
    exists b0, cs. split; [exact (went_trans _ _ _ _ _ (went_trans _ _ _ _ _ T T2) T3)|]. split; [exact U3|]. split; [change (x :: bs ++ more) with ((x :: bs) ++ more); intro K; apply in_app_or in K; tauto|]. rewrite <- C1. exact R3.
  - pose proof T as (W1 & C1 & _). rewrite <- C1 in C. destruct (IH _ _ _ W1 C H) as (b0 & cs & T3 & U3 & N3 & R3). exists b0, cs. split; [exact (went_trans _ _ _ [] _ T T3)|]. rewrite <- C1. auto.
  - destruct T as (U0 & U1 & cs & R). injection H as <- <-. exists b, cs. split; [now apply went_refl|]. split; [exact U0|]. split; [intros []|exact R].
Qed.
Lemma until_nil : forall fuel b l k b', wf (under b) -> (136 <= capacity b)%nat -> stream b = [] -> buf_until fuel b = Some (l, k, b') -> k = true /\ stream b' = [].
Proof.
  assert (RN : forall n c i xs j sc, wf i -> reads i [] (repeat c n) = (xs, j, sc) -> sc = []).
  { induction n as [|n IH]; intros c i xs j sc W H; cbn [repeat reads] in H; [now injection H as _ _ <-|]. destruct (read i [] c) as [[[r cs] i1] sc1] eqn:ER. destruct (read_nil _ _ _ _ _ _ W ER) as [_ ->].
    destruct (reads i1 [] (repeat c n)) as [[ys j1] sc2] eqn:ES. injection H as _ _ <-. exact (IH _ _ _ _ _ (read_wf _ _ _ _ _ _ _ W ER) ES). }
  intros fuel b l [|] b' W C S H.
  - destruct (until_went _ _ _ _ W C H) as [(_ & _ & n & xs & R & _) _]. rewrite S in R. split; [reflexivity|exact (RN _ _ _ _ _ _ W R)].
  - destruct (until_failed _ _ _ _ W C H) as (b0 & cs & (W0 & _ & n & xs & R & _) & _ & _ & R2). rewrite S in R. rewrite (RN _ _ _ _ _ _ W R) in R2. destruct (read_nil _ _ _ _ _ _ W0 R2) as [K _]. congruence.
Qed.
Lemma proj_write : forall b r d a, do_dop (dover b) (DOut (OpWriteText a)) = (r, d) -> proj (mkdbuf d (dcap b) (dunread b)) = proj b.
Proof. intros b r d a H. now apply (out_proj b (OpWriteText a) r d). Qed.
Lemma serve_nil : forall fuel m f b ls e b', wf (din (dover b)) -> (136 <= dcap b)%nat -> dscript (dover b) = [] -> serve fuel m f b = Some (ls, e, b') -> e <> ReadFailed.
Proof.
  intros fuel m f. induction m as [|m IH]; intros b ls e b' W C S H; [discriminate|]. cbn [serve] in H. pose proof (until_proj fuel b) as UP. destruct (dbuf_until fuel b) as [[[l k] b1]|] eqn:EU; [|discriminate].
  destruct (until_nil fuel (proj b) l k (proj b1) W C S UP) as [-> S1]. pose proof (until_taken _ _ _ _ _ (W : wf (under (proj b))) C UP) as (W1 & C1 & _). destruct l as [|x l]; [injection H as <- <- <-; discriminate|].
  destruct (do_dop (dover b1) _) as [r d] eqn:ED. pose proof (proj_write _ _ _ _ ED) as PW. destruct r as [y cs|[w|]|]; try (injection H as <- <- <-; discriminate).
  destruct (serve fuel m f _) as [[[ls' e'] b3]|] eqn:ES; [|discriminate]. injection H as <- <- <-. unfold proj in PW, W1, C1, S1. injection PW as P1 P2. cbn [dover dcap dunread under stream capacity] in *.
  apply (IH _ _ _ _) in ES; cbn [dover dcap]; [exact ES|rewrite P1; exact W1|rewrite C1; exact C|rewrite P2; exact S1].
Qed.
Lemma serve_went : forall fuel m f b ls b', wf (din (dover b)) -> (136 <= dcap b)%nat -> serve fuel m f b = Some (ls, ReadFailed, b') ->
  Forall (fun l => exists u, l = u ++ [LF] /\ ~ In LF u) ls /\
  exists b0 part cs, went (proj b) b0 (concat ls ++ part) /\ unread b0 = [] /\ ~ In LF part /\ read (under b0) (stream b0) (dcap b) = (RErr, cs, din (dover b'), dscript (dover b')).
Proof.
  intros fuel m f. induction m as [|m IH]; intros b ls b' W C H; [discriminate|]. cbn [serve] in H. pose proof (until_proj fuel b) as UP. destruct (dbuf_until fuel b) as [[[l k] b1]|] eqn:EU; [|discriminate].
  destruct k.
  - destruct l as [|x l]; [discriminate|]. destruct (until_went fuel (proj b) (x :: l) (proj b1) W C UP) as [T S]. pose proof T as (W1 & C1 & _).
    destruct (do_dop (dover b1) _) as [r d] eqn:ED. pose proof (proj_write _ _ _ _ ED) as PW. destruct r as [y cs|[w|]|]; try discriminate.
    destruct (serve fuel m f _) as [[[ls' e'] b3]|] eqn:ES; [|discriminate]. injection H as <- -> <-. pose proof PW as PW2. unfold proj in PW2, W1, C1, S. injection PW2 as P1 P2. cbn [dover dcap dunread under stream capacity] in *.
    assert (W2 : wf (din d)) by (rewrite P1; exact W1). assert (C2 : (136 <= dcap b1)%nat) by (rewrite C1; exact C).
    destruct S as [S|S]; [|exfalso; refine (serve_nil _ _ _ (mkdbuf d (dcap b1) (dunread b1)) _ _ _ W2 C2 _ ES eq_refl); cbn [dover]; now rewrite P2].
    destruct (IH (mkdbuf d (dcap b1) (dunread b1)) _ _ W2 C2 ES) as (F & b0 & part & cs & T2 & U & N & R). split; [constructor; [exact S|exact F]|]. exists b0, part, cs. rewrite PW in T2.
    split; [cbn [concat]; rewrite <- app_assoc; exact (went_trans _ _ _ _ _ T T2)|]. split; [exact U|]. split; [exact N|]. cbn [dcap] in R. rewrite <- C1. exact R.
  - assert (H' : Some (@nil (list N), ReadFailed, b1) = Some (ls, ReadFailed, b')) by (destruct l; exact H). injection H' as <- <-. split; [constructor|].
    destruct (until_failed fuel (proj b) l (proj b1) W C UP) as (b0 & cs & T & U & N & R). exists b0, l, cs. auto.
Qed.
(** * What was sent *)
Lemma serve_going : forall fuel m f cr p b ls e b' t, (forall l, complete_lines (f l)) -> serve fuel m f b = Some (ls, e, b') -> going cr p t (dover b) -> going cr p (t ++ concat (map f ls)) (dover b').
Proof.
  intros fuel m f cr p b ls e b' t A. revert b ls e b' t. induction m as [|m IH]; intros b ls e b' t H G; [discriminate|]. cbn [serve] in H. destruct (dbuf_until fuel b) as [[[l k] b1]|] eqn:EU; [|discriminate].
  pose proof (going_until _ _ _ _ _ _ _ _ EU G) as G1. assert (Z : going cr p (t ++ concat (map f [])) (dover b1)) by (cbn; now rewrite app_nil_r). destruct k.
  - destruct l as [|x l]; [injection H as <- <- <-; exact Z|]. destruct (do_dop (dover b1) _) as [r d] eqn:ED. destruct (going_write _ _ _ _ _ _ _ G1 (A _) ED) as [-> G2].
    destruct (serve fuel m f _) as [[[ls' e'] b3]|] eqn:ES; [|discriminate]. injection H as <- <- <-. cbn [map concat]. rewrite app_assoc. exact (IH _ _ _ _ _ ES G2).
  - assert (H' : Some (@nil (list N), ReadFailed, b1) = Some (ls, e, b')) by (destruct l; exact H). injection H' as <- <- <-. exact Z.
Qed.
Lemma going_sent : forall cr p t d, going cr p t d -> emitted (inner (dout d)) = p ++ as_sent cr t.
Proof. intros cr p t d (_ & x & (_ & _ & _ & E & _) & _ & _ & _ & S). now rewrite E. Qed.
(** The moment at which the server asks for more *)
Lemma serve_moment : forall nel lsps cr p used rest cap fuel m f ls b t, (136 <= cap)%nat ->
  serve fuel m f (new_dbuf (new_duplexer nel lsps cr false (mksink p [] false) (used ++ Fail :: rest)) cap) = Some (ls, ReadFailed, b) -> dscript (dover b) = rest -> gives nel lsps used t ->
  Forall (fun l => exists u, l = u ++ [0xA] /\ ~ In 0xA u) ls /\
  exists n xs i part held cs j, SpecPrompt.holds nel lsps used (Fail :: rest) (repeat cap n) xs i held /\ Forall fine xs /\ t = delivered xs ++ held /\ encode_all (delivered xs) = concat ls ++ part /\ ~ In 0xA part /\
    read i (Fail :: rest) cap = (RErr, cs, j, rest).
Proof.
  intros nel lsps cr p used rest cap fuel m f ls b t C H S G.
  destruct (serve_went fuel m f (new_dbuf (new_duplexer nel lsps cr false (mksink p [] false) (used ++ Fail :: rest)) cap) ls b (wf_new nel lsps) C H) as (F & b0 & part & cs & (W & C0 & n & xs & R & FX & E) & U & N & RE).
  split; [exact F|]. cbn [proj new_dbuf new_duplexer dover dcap din dscript dunread under stream capacity unread app] in R, C0, RE, E. rewrite U, app_nil_r in E. rewrite S in RE.
  assert (SC : stream b0 = Fail :: rest).
  { destruct (read_spec _ _ _ _ _ _ _ W RE) as (_ & _ & _ & [K|[K|[K|K]]]).
    - destruct K as (K & _). discriminate.
    - destruct K as (K & _). discriminate.
    - destruct K as (_ & K & _). destruct (stream b0) as [|[c s|] q]; cbn in K; [discriminate|destruct s; discriminate|]. now injection K as ->.
    - destruct K as (raw & s & new & cs2 & _ & _ & _ & _ & _ & _ & _ & [(K & _)|(K & _)]); discriminate. }
  rewrite SC in R, RE. destruct (delivered_prefix _ _ _ _ _ _ _ _ R ltac:(discriminate) G) as (held & ET).
  exists n, xs, (under b0), part, held, cs, (din (dover b)). split; [split; [exact R|rewrite <- ET; exact G]|]. split; [exact FX|]. split; [exact ET|]. split; [now rewrite <- (fine_delivered _ FX)|]. split; [exact N|exact RE].
Qed.
Lemma serve_sent : forall nel lsps cr p script cap fuel m f ls e b, (forall l, complete_lines (f l)) ->
  serve fuel m f (new_dbuf (new_duplexer nel lsps cr false (mksink p [] false) script) cap) = Some (ls, e, b) -> emitted (inner (dout (dover b))) = p ++ as_sent cr (concat (map f ls)).
Proof.
  intros nel lsps cr p script cap fuel m f ls e b A H. apply (going_sent cr p ([] ++ concat (map f ls))). refine (serve_going _ _ _ _ _ _ _ _ _ [] A H _).
  split; [apply wf_new|]. exists (new_doc p []). split; [apply new_refines|]. split; [reflexivity|]. split; [reflexivity|]. split; [now left|]. destruct cr; symmetry; apply app_nil_r.
Qed.
Theorem serve_waiting : forall nel lsps cr p used rest cap fuel m f ls b t, (136 <= cap)%nat -> (forall l, complete_lines (f l)) ->
  serve fuel m f (new_dbuf (new_duplexer nel lsps cr false (mksink p [] false) (used ++ Fail :: rest)) cap) = Some (ls, ReadFailed, b) -> dscript (dover b) = rest -> gives nel lsps used t ->
  emitted (inner (dout (dover b))) = p ++ as_sent cr (concat (map f ls)) /\ Forall (fun l => exists u, l = u ++ [0xA] /\ ~ In 0xA u) ls /\
  exists part given line, encode_all t = concat ls ++ part ++ encode_all (given ++ line) /\ ~ In 0xA part /\ (str_len given + 4 <= cap)%nat /\ (line = [] \/ exists l, line = l ++ [0xA] /\ ~ In 0xA l).
Proof.
  intros nel lsps cr p used rest cap fuel m f ls b t C A H S G. split; [exact (serve_sent _ _ _ _ _ _ _ _ _ _ _ _ A H)|].
  destruct (serve_moment _ _ _ _ _ _ _ _ _ _ _ _ _ C H S G) as (F & n & xs & i & part & held & cs & j & H2 & FX & ET & E & N & RE). split; [exact F|].
  destruct (asks_late _ _ _ _ _ _ _ _ _ _ _ _ _ H2 RE) as (given & more & line & _ & EH & LG & LL); [discriminate|intro K; apply (f_equal (@length event)) in K; cbn in K; lia|].
  exists part, given, line. split; [|split; [exact N|split; [exact LG|exact LL]]]. rewrite ET, EH, encode_all_app, E, <- app_assoc. reflexivity.
Qed.
(** If everything fits the buffer *)
Theorem serve_short : forall nel lsps cr p used rest cap fuel m f ls b t, (136 <= cap)%nat -> (forall l, complete_lines (f l)) ->
  serve fuel m f (new_dbuf (new_duplexer nel lsps cr false (mksink p [] false) (used ++ Fail :: rest)) cap) = Some (ls, ReadFailed, b) -> dscript (dover b) = rest -> gives nel lsps used t -> (str_len t + 4 <= cap)%nat ->
  emitted (inner (dout (dover b))) = p ++ as_sent cr (concat (map f ls)) /\ Forall (fun l => exists u, l = u ++ [0xA] /\ ~ In 0xA u) ls /\
  exists last, encode_all t = concat ls ++ last /\ (last = [] \/ exists l, last = l ++ [0xA] /\ ~ In 0xA l) /\
    (~ In 0x1B (stream_text used) -> last_opt (stream_text used) = Some 0xA -> last = []).
Proof.
  intros nel lsps cr p used rest cap fuel m f ls b t C A H SC G L. split; [exact (serve_sent _ _ _ _ _ _ _ _ _ _ _ _ A H)|].
  destruct (serve_moment _ _ _ _ _ _ _ _ _ _ _ _ _ C H SC G) as (F & n & xs & i & part & held & cs & j & H2 & FX & ET & E & N & RE). split; [exact F|].
  assert (HL : (held = [] \/ exists line, held = line ++ [0xA] /\ ~ In 0xA line) /\ (~ In 0x1B (stream_text used) -> last_opt (stream_text used) = Some 0xA -> held = [])).
  { destruct H2 as [R G2]. destruct n as [|n].
    - cbn in R. injection R as <- _ EU. apply (app_inv_tail (Fail :: rest) used []) in EU. subst used. cbn in ET. subst held. apply gives_converted in G. assert (K : t = []) by (rewrite G; destruct nel, lsps; vm_compute; reflexivity). split; [now left|now intros _ _].
    - assert (LR : left_room (repeat cap (S n)) xs); [|split; [exact (lines_prompt nel lsps used (Fail :: rest) (repeat cap (S n)) xs i held (conj R G2) LR)|exact (line_ended nel lsps used (Fail :: rest) (repeat cap (S n)) xs i held (conj R G2) LR)]]. replace (S n) with (n + 1)%nat in R by lia. rewrite repeat_app in R. rewrite reads_more in R.
      destruct (reads (new_input nel lsps) (used ++ Fail :: rest) (repeat cap n)) as [[ys k] sc1] eqn:E1. cbn [repeat reads] in R. destruct (read k sc1 cap) as [[[q c] k1] sc2] eqn:E2. injection R as EX EI ES. subst xs k1 sc2.
      apply Forall_app in FX. destruct FX as [_ FX]. inversion FX as [|? ? (nn & s & EQ) _]; subst. cbn [fst] in EQ. subst q.
      assert (WK : wf k) by (destruct (reads_spec _ _ _ _ _ _ (wf_new nel lsps) E1) as (WK & _); exact WK).
      exists (repeat cap n), cap, ys, nn, s, c. split; [replace (S n) with (n + 1)%nat by lia; now rewrite repeat_app|]. split; [reflexivity|]. rewrite (read_count _ _ _ _ _ _ _ _ WK E2).
      unfold delivered in L. rewrite flat_map_app in L. cbn [flat_map snd] in L. rewrite app_nil_r, !str_len_app in L. lia. }
  assert (EA : encode_all t = concat ls ++ part ++ encode_all held) by (rewrite ET, encode_all_app, E, <- app_assoc; reflexivity). destruct HL as [[->|(line & -> & NL)] HE].
  - destruct (match part with [] => true | _ => false end) eqn:EP; [destruct part; [|discriminate]; exists []; split; [exact EA|split; [now left|reflexivity]]|]. exfalso.
    assert (LT : line_terminated t) by (rewrite (gives_converted _ _ _ _ G); exact (proj2 (ReadSession.converted_ok _ _ _))).
    cbn [encode_all flat_map] in EA. rewrite app_nil_r in EA. destruct part as [|x part]; [discriminate|]. destruct LT as [->|(v & ->)]; [destruct (concat ls); discriminate|].
    rewrite encode_all_app in EA. change (encode_all [0xA]) with [0xA] in EA. destruct (exists_last (l := x :: part)) as (w & z & EW); [discriminate|]. rewrite EW, app_assoc in EA. apply app_inj_tail in EA. destruct EA as [_ <-].
    apply N. rewrite EW. apply in_or_app. right. now left.
  - exists ((part ++ encode_all line) ++ [0xA]). split; [rewrite EA, encode_all_app; change (encode_all [0xA]) with [0xA]; now rewrite !app_assoc|]. split; [|intros K1 K2; exfalso; apply (app_cons_not_nil line [] 0xA); symmetry; exact (HE K1 K2)]. right. eexists. split; [reflexivity|]. intro K. apply in_app_or in K. destruct K as [K|K]; [exact (N K)|].
    apply LF_encode_all in K. exact (NL K).
Qed.
Theorem serve_few : forall nel lsps cr p used rest cap fuel m f ls b t, (136 <= cap)%nat -> (forall l, complete_lines (f l)) ->
  serve fuel m f (new_dbuf (new_duplexer nel lsps cr false (mksink p [] false) (used ++ Fail :: rest)) cap) = Some (ls, ReadFailed, b) -> dscript (dover b) = rest -> gives nel lsps used t -> (4 * str_len (stream_text used) + 5 <= cap)%nat ->
  emitted (inner (dout (dover b))) = p ++ as_sent cr (concat (map f ls)) /\ Forall (fun l => exists u, l = u ++ [0xA] /\ ~ In 0xA u) ls /\
  exists last, encode_all t = concat ls ++ last /\ (last = [] \/ exists l, last = l ++ [0xA] /\ ~ In 0xA l) /\
    (~ In 0x1B (stream_text used) -> last_opt (stream_text used) = Some 0xA -> last = []).
Proof.
  intros nel lsps cr p used rest cap fuel m f ls b t C A H SC G L. apply (serve_short nel lsps cr p used rest cap fuel m f ls b t C A H SC G).
  destruct G as (sz & rs & j & r & R & _ & <-). pose proof (reads_bound _ _ _ _ _ _ _ R). lia.
Qed.
