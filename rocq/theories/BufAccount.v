(** What a BufReader has taken from a reader, and what it has given. *)
From Coq Require Import NArith Arith List Bool Lia ZifyBool ZifyNat ZifyN.
From Verif Require Import Base Ucd UcdTables Norm Chars TextTables TextUtils UcdFacts NormFacts CharFacts DocTable SpecText TextFacts PipelineFacts DocFacts IsoFacts
  Utf8 Utf8Facts Input Output ReadFacts ReadInv ReadSession SpecRead ScalarFacts ReadChunk SpecEscape EscapeFacts EscapeRun ReadProps KeepFacts ReadPieces SpecConv ConvFacts ReadMore
  SpecWrite WriteFacts WriteProps Strings StringFacts EdgeFacts Copy CopyProps ExactProps StdIo SpecStd CutProps StdProps SizeProps SpecCat Lines SpecLine LineProps LineIo StdBuf SpecBuf BufProps Duplex SpecDuplex DuplexProps DuplexBuf SpecDuplexBuf DuplexBufProps.
Import ListNotations.
Local Open Scope N_scope.
Arguments N.add : simpl never.
Arguments N.leb : simpl never.
Arguments N.ltb : simpl never.
Arguments N.eqb : simpl never.
Local Opaque pipeline.

Lemma reads_more : forall a b i sc, reads i sc (a ++ b) = let '(xs, j, sc1) := reads i sc a in let '(ys, k, sc2) := reads j sc1 b in (xs ++ ys, k, sc2).
Proof.
  induction a as [|n a IH]; intros b i sc; cbn [app reads]; [destruct (reads i sc b) as [[ys k] sc2]; reflexivity|].
  destruct (read i sc n) as [[[r cs] j] sc1]. rewrite IH. destruct (reads j sc1 a) as [[xs j1] sc2]. destruct (reads j1 sc2 b) as [[ys k] sc3]. reflexivity.
Qed.
Lemma received_more : forall a b, received (a ++ b) = received a ++ received b. Proof. intros. unfold received. apply flat_map_app. Qed.
(** [taken b b' bs]: reads lead from [b] to [b'], and [bs] was given in between *)
Definition taken (b b' : bufreader) (bs : list N) : Prop :=
  wf (under b') /\ capacity b' = capacity b /\ exists n xs, reads (under b) (stream b) (repeat (capacity b) n) = (xs, under b', stream b') /\ unread b ++ encode_all (received xs) = bs ++ unread b'.
Lemma taken_refl : forall b, wf (under b) -> taken b b [].
Proof. intros b W. split; [exact W|]. split; [reflexivity|]. exists O, []. split; [reflexivity|]. cbn. apply app_nil_r. Qed.
Lemma taken_trans : forall a b c x y, taken a b x -> taken b c y -> taken a c (x ++ y).
Proof.
  intros a b c x y (W & C & n & xs & R & E) (W2 & C2 & m & ys & R2 & E2). split; [exact W2|]. split; [congruence|]. exists (n + m)%nat, (xs ++ ys). rewrite repeat_app, reads_more, R, <- C, R2. split; [reflexivity|].
  rewrite received_more, encode_all_app, app_assoc, E, <- !app_assoc, E2. reflexivity.
Qed.
Lemma fill_taken : forall b r b', wf (under b) -> (136 <= capacity b)%nat -> fill_buf b = (r, b') -> taken b b' [] /\ match r with BOk bs => bs = unread b' | _ => True end.
Proof.
  intros [i sc cap [|x u]] r b' W C H; [|injection H as <- <-; split; [now apply taken_refl|reflexivity]]. unfold fill_buf, direct in H. cbn [unread under stream capacity] in *.
  destruct (read i sc cap) as [[[q cs] j] sc'] eqn:ER. pose proof (std_cases _ _ _ _ _ _ _ W C ER) as SC. pose proof (read_wf _ _ _ _ _ _ _ W ER) as W'.
  assert (T : forall v, encode_all (received [(q, cs)]) = v -> taken (mkbuf i sc cap []) (mkbuf j sc' cap v) []).
  { intros v V. split; [exact W'|]. split; [reflexivity|]. exists 1%nat, [(q, cs)]. cbn [repeat reads capacity under stream unread app]. rewrite ER. split; [reflexivity|exact V]. }
  destruct (std_result false q) as [m| |]; injection H as <- <-; cbn [under stream capacity]; (split; [apply T|try reflexivity; exact I]).
  - destruct SC as [-> _]. reflexivity.
  - destruct SC as (-> & s & ->). reflexivity.
  - destruct SC as [-> _]. reflexivity.
Qed.
Lemma consume_taken : forall b l t, wf (under b) -> unread b = l ++ t -> taken b (consume (length l) b) l.
Proof.
  intros b l t W E. split; [exact W|]. split; [reflexivity|]. exists O, []. split; [reflexivity|]. unfold consume. cbn [unread received flat_map encode_all]. rewrite app_nil_r, E, skipn_app, skipn_all, Nat.sub_diag. reflexivity.
Qed.
Lemma until_split : forall bs, exists t, bs = fst (until_lf bs) ++ t.
Proof. intro bs. destruct (until_lf_cases bs) as [[_ ->]|(p & t & -> & _ & ->)]; [exists []; symmetry; apply app_nil_r|]. exists t. cbn [fst]. now rewrite <- app_assoc. Qed.
Lemma until_taken : forall fuel b l k b', wf (under b) -> (136 <= capacity b)%nat -> buf_until fuel b = Some (l, k, b') -> taken b b' l.
Proof.
  induction fuel as [|f IH]; intros b l k b' W C H; [discriminate|]. cbn [buf_until] in H. destruct (fill_buf b) as [r b1] eqn:EF. destruct (fill_taken _ _ _ W C EF) as [T U].
  pose proof T as (W1 & C1 & _). rewrite <- C1 in C. destruct r as [[|x bs]| |].
  - injection H as <- <- <-. exact T.
  - destruct (until_split (x :: bs)) as [t ET]. destruct (until_lf (x :: bs)) as [l1 rest]. cbn [fst] in ET. rewrite U in ET. pose proof (consume_taken b1 l1 t W1 ET) as T2. pose proof (taken_trans _ _ _ _ _ T T2) as T3. cbn [app] in T3.
    destruct (ends_with LF l1); [injection H as <- <- <-; exact T3|]. destruct (buf_until f (consume (length l1) b1)) as [[[more ok] e]|] eqn:EU; [|discriminate]. injection H as <- <- <-.
    exact (taken_trans _ _ _ _ _ T3 (IH (consume (length l1) b1) _ _ _ W1 C EU)).
  - exact (taken_trans _ _ _ _ _ T (IH _ _ _ _ W1 C H)).
  - injection H as <- <- <-. exact T.
Qed.
Lemma each_taken : forall fuel n b ls b', wf (under b) -> (136 <= capacity b)%nat -> buf_each fuel b n = Some (ls, b') -> taken b b' (concat (map fst ls)).
Proof.
  intros fuel. induction n as [|n IH]; intros b ls b' W C H; cbn [buf_each] in H; [injection H as <- <-; now apply taken_refl|].
  destruct (buf_until fuel b) as [[[l k] b1]|] eqn:EU; [|discriminate]. pose proof (until_taken _ _ _ _ _ W C EU) as T. pose proof T as (W1 & C1 & _). destruct (buf_each fuel b1 n) as [[ls' e]|] eqn:EE; [|discriminate].
  injection H as <- <-. cbn [map concat fst]. apply (taken_trans _ _ _ _ _ T). apply (IH _ _ _ W1); [now rewrite C1|exact EE].
Qed.
Theorem buffered_account : forall nel lsps script cap fuel n ls b, (136 <= cap)%nat -> buf_each fuel (new_bufreader nel lsps script cap) n = Some (ls, b) ->
  exists k xs, reads (new_input nel lsps) script (repeat cap k) = (xs, under b, stream b) /\ encode_all (received xs) = concat (map fst ls) ++ unread b.
Proof. intros nel lsps script cap fuel n ls b C H. destruct (each_taken fuel n (new_bufreader nel lsps script cap) ls b (wf_new nel lsps) C H) as (_ & _ & k & xs & R & E). exists k, xs. split; [exact R|exact E]. Qed.
Theorem conversation_account : forall nel lsps cr an k script cap fuel os rs b, (136 <= cap)%nat -> Forall (fun o => o <> BOut OpAbandon) os ->
  btalk fuel (new_dbuf (new_duplexer nel lsps cr an k script) cap) os = Some (rs, b) ->
  exists n xs, reads (new_input nel lsps) script (repeat cap n) = (xs, din (dover b), dscript (dover b)) /\ encode_all (received xs) = concat (map fst (got rs)) ++ dunread b.
Proof.
  intros nel lsps cr an k script cap fuel os rs b C F H. pose proof (conversation_reads nel lsps cr an k script cap fuel os F) as K. rewrite H in K. exact (buffered_account _ _ _ _ _ _ _ _ C K).
Qed.
