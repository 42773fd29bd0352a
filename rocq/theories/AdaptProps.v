(** The adaptors of std::io::Read over TextReaders. *)
From Coq Require Import NArith Arith List Bool Lia ZifyBool ZifyNat ZifyN.
From Verif Require Import Base Ucd UcdTables Norm Chars TextTables TextUtils UcdFacts NormFacts CharFacts DocTable SpecText TextFacts PipelineFacts DocFacts IsoFacts
  Utf8 Utf8Facts Input Output ReadFacts ReadInv ReadSession SpecRead ScalarFacts ReadChunk SpecEscape EscapeFacts EscapeRun ReadProps KeepFacts ReadPieces SpecConv ConvFacts ReadMore
  SpecWrite WriteFacts WriteProps Strings StringFacts EdgeFacts Copy CopyProps ExactProps StdIo SpecStd CutProps StdProps SizeProps SpecCat Lines SpecLine LineProps LineIo StdBuf SpecBuf BufProps StdAdapt.
Import ListNotations.
Local Open Scope N_scope.
Arguments N.add : simpl never.
Arguments N.leb : simpl never.
Arguments N.ltb : simpl never.
Arguments N.eqb : simpl never.
Local Opaque pipeline.

(** * One read *)
Definition plain (t : text_reader) : bufreader := mkbuf (state_of t) (stream_of t) 0 [].
Definition ran (nel lsps : bool) (script : list event) (g : list N) (t : text_reader) (ns : list nat) (xs : list (read_result * list N)) : Prop := session nel lsps script g (plain t) ns xs.
Lemma ran_new : forall nel lsps script, ran nel lsps script [] (new_reader nel lsps script) [] [].
Proof. intros. apply (session_new nel lsps script 0). Qed.
Lemma std_direct : forall t n r t', std_read t n = (r, t') -> direct (plain t) n = (r, plain t').
Proof. intros t n r t' H. unfold std_read in H. unfold direct, plain. cbn. destruct (read (state_of t) (stream_of t) n) as [[[x cs] i] sc]. injection H as <- <-. reflexivity. Qed.
Definition remaining (t : text_reader) : nat := measure (state_of t) (stream_of t).
Lemma std_read_spec : forall nel lsps script g t ns xs n r t', ran nel lsps script g t ns xs -> (136 <= n)%nat -> std_read t n = (r, t') ->
  exists x cs, let xs' := xs ++ [(x, cs)] in
  ran nel lsps script (g ++ match r with BOk bs => bs | _ => [] end) t' (ns ++ [n]) xs' /\
  (match r with BOk bs => (length bs <= n)%nat | _ => True end) /\
  (no_fail (stream_of t) -> r <> BErr /\ no_fail (stream_of t')) /\ (r = BOk [] -> x = ROk 0 End) /\ reads_failed [(x, cs)] = errors_given [r] /\ (r = BOk [] \/ (remaining t' < remaining t)%nat).
Proof. intros nel lsps script g t ns xs n r t' S N H. destruct (direct_spec _ _ _ _ _ _ _ _ _ _ S eq_refl N (std_direct _ _ _ _ H)) as (_ & _ & x & cs & R). now exists x, cs. Qed.
Lemma std_read_short : forall t n, (n < 136)%nat -> std_read t n = (BErr, t).
Proof. intros t n L. unfold std_read, read. replace (n <? NORMALIZATION_BUFFER_SIZE)%nat with true by (symmetry; apply Nat.ltb_lt; rewrite nbs_136; exact L). now destruct t. Qed.

(** * Take *)
Lemma app_one_given : forall r, bytes_given [r] = match r with BOk bs => bs | _ => [] end.
Proof. intros r. unfold bytes_given. cbn. apply app_nil_r. Qed.
Lemma cons_given : forall r rs, bytes_given (r :: rs) = bytes_given [r] ++ bytes_given rs.
Proof. intros. rewrite app_one_given. reflexivity. Qed.
Lemma cons_errors : forall r rs, errors_given (r :: rs) = (errors_given [r] + errors_given rs)%nat.
Proof. intros. change (r :: rs) with ([r] ++ rs). apply errors_app. Qed.
(** One read through a Take. *)
Lemma take_spec : forall nel lsps script g t ns xs n r t', ran nel lsps script g (taken t) ns xs -> (136 <= n)%nat -> take_read t n = (r, t') ->
  (limit t = 0%nat /\ r = BOk [] /\ t' = t) \/ ((0 < limit t < 136)%nat /\ r = BErr /\ t' = t) \/
  ((136 <= limit t)%nat /\ exists x cs, ran nel lsps script (g ++ bytes_given [r]) (taken t') (ns ++ [Nat.min n (limit t)]) (xs ++ [(x, cs)]) /\
   (limit t = length (bytes_given [r]) + limit t')%nat /\ (no_fail (stream_of (taken t)) -> r <> BErr /\ no_fail (stream_of (taken t'))) /\ (r = BOk [] -> x = ROk 0 End) /\
   reads_failed [(x, cs)] = errors_given [r] /\ (r = BOk [] \/ (remaining (taken t') < remaining (taken t))%nat)).
Proof.
  intros nel lsps script g t ns xs n r t' S N H. unfold take_read in H. destruct (Nat.eqb_spec (limit t) 0) as [Z|Z]; [injection H as <- <-; auto|right].
  destruct (std_read (taken t) (Nat.min n (limit t))) as [r0 k] eqn:E. injection H as <- <-. cbn [taken limit].
  destruct (le_lt_dec 136 (limit t)) as [L|L]; [right|left].
  - split; [exact L|]. assert (M : (136 <= Nat.min n (limit t))%nat) by lia.
    destruct (std_read_spec _ _ _ _ _ _ _ _ _ _ S M E) as (x & cs & R & LE & NF & EN & ER & PR). exists x, cs. cbv zeta in R. rewrite app_one_given.
    split; [exact R|]. split; [destruct r0; cbn [length]; lia|]. auto.
  - rewrite std_read_short in E by lia. injection E as <- <-. split; [lia|]. split; [reflexivity|]. destruct t. cbn. now rewrite Nat.sub_0_r.
Qed.
Lemma ran_take : forall nel lsps script l, ran nel lsps script [] (taken (mktake (new_reader nel lsps script) l)) [] [].
Proof. intros. apply ran_new. Qed.
Lemma take_short_stays : forall sizes t rs t', (0 < limit t < 136)%nat -> take_reads t sizes = (rs, t') -> rs = map (fun _ => BErr) sizes /\ t' = t.
Proof.
  induction sizes as [|n sizes IH]; intros t rs t' L H; cbn [take_reads map] in *; [now injection H as <- <-|].
  assert (E : take_read t n = (BErr, t)).
  { unfold take_read. destruct (Nat.eqb_spec (limit t) 0) as [Z|_]; [lia|]. rewrite std_read_short by lia. rewrite Nat.sub_0_r. now destruct t. }
  rewrite E in H. destruct (take_reads t sizes) as [a b] eqn:EE. injection H as <- <-. destruct (IH _ _ _ L EE) as [-> ->]. auto.
Qed.
Lemma take_go : forall sizes nel lsps script g t ns xs rs t', ran nel lsps script g (taken t) ns xs -> legal_sizes sizes -> take_reads t sizes = (rs, t') ->
  exists ns' xs' k, ran nel lsps script (g ++ bytes_given rs) (taken t') ns' xs' /\ limit t = (length (bytes_given rs) + limit t')%nat /\
  (reads_failed xs + errors_given rs = reads_failed xs' + k)%nat /\ (k <> 0 -> 0 < limit t' < 136)%nat.
Proof.
  induction sizes as [|n sizes IH]; intros nel lsps script g t ns xs rs t' S LS H; cbn [take_reads] in H.
  - injection H as <- <-. exists ns, xs, 0%nat. cbn [bytes_given flat_map length]. rewrite app_nil_r. split; [exact S|]. split; [reflexivity|]. split; [cbn; lia|lia].
  - destruct (take_read t n) as [r t1] eqn:E1. destruct (take_reads t1 sizes) as [rs' t2] eqn:E2. injection H as <- <-. inversion LS as [|? ? N1 LS']; subst.
    destruct (take_spec _ _ _ _ _ _ _ _ _ _ S N1 E1) as [(Z & -> & ->)|[(Z & -> & ->)|(L & x & cs & S1 & LE & _ & EN & ER & _)]].
    + destruct (IH _ _ _ _ _ _ _ _ _ S LS' E2) as (ns' & xs' & k & A & B & C & D). exists ns', xs', k. rewrite cons_given, cons_errors. cbn [bytes_given flat_map app]. auto.
    + destruct (take_short_stays _ _ _ _ Z E2) as [-> ->]. exists ns, xs, (Datatypes.S (length sizes)).
      assert (G : bytes_given (map (fun _ => BErr) sizes) = []) by (clear; induction sizes; [reflexivity|exact IHsizes]).
      assert (G2 : errors_given (map (fun _ => BErr) sizes) = length sizes) by (clear; induction sizes; [reflexivity|cbn; unfold errors_given in *; cbn; now rewrite IHsizes]).
      rewrite cons_given, cons_errors, G, G2, !app_nil_r. split; [exact S|]. split; [reflexivity|]. split; [cbn; lia|intros _; exact Z].
    + destruct (IH _ _ _ _ _ _ _ _ _ S1 LS' E2) as (ns' & xs' & k & A & B & C & D). exists ns', xs', k. rewrite cons_given, cons_errors, app_length, app_assoc.
      split; [exact A|]. split; [lia|]. split; [rewrite failed_app in C; lia|]. exact D.
Qed.
Theorem take_text : forall nel lsps script l sizes rs t', legal_sizes sizes -> take_reads (mktake (new_reader nel lsps script) l) sizes = (rs, t') ->
  exists ns xs k, legal_sizes ns /\ reads (new_input nel lsps) script ns = (xs, state_of (taken t'), stream_of (taken t')) /\ bytes_given rs = encode_all (received xs) /\
  (length (bytes_given rs) + limit t' = l)%nat /\ errors_given rs = (reads_failed xs + k)%nat /\ (k <> 0 -> 0 < limit t' < 136)%nat.
Proof.
  intros nel lsps script l sizes rs t' LS H. destruct (take_go _ _ _ _ _ _ _ _ _ _ (ran_take nel lsps script l) LS H) as (ns & xs & k & (S1 & S2 & S3 & _) & B & C & D).
  cbn [unread plain app limit] in *. rewrite app_nil_r in S3. exists ns, xs, k. cbn in C. auto 8.
Qed.
Lemma take_more : forall sizes1 sizes2 a b, take_reads a (sizes1 ++ sizes2) = b -> exists r1 b1 r2 b2, take_reads a sizes1 = (r1, b1) /\ take_reads b1 sizes2 = (r2, b2) /\ b = (r1 ++ r2, b2).
Proof.
  induction sizes1 as [|n t IH]; intros sizes2 a b H; cbn [app take_reads] in *.
  - destruct (take_reads a sizes2) as [r2 b2] eqn:E. exists [], a, r2, b2. auto.
  - destruct (take_read a n) as [r a1]. destruct (take_reads a1 (t ++ sizes2)) as [rs a2] eqn:E. destruct (IH _ _ _ E) as (r1 & b1 & r2 & b2 & E1 & E2 & E3). injection E3 as -> ->.
    exists (r :: r1), b1, r2, b2. rewrite E1. subst b. auto.
Qed.
(** Ok(0): the limit is reached, or the end. *)
Theorem take_end : forall nel lsps script l sizes n rs t', legal_sizes (sizes ++ [n]) -> take_reads (mktake (new_reader nel lsps script) l) (sizes ++ [n]) = (rs ++ [BOk []], t') ->
  length (bytes_given rs) = l \/ exists ns xs j rest, legal_sizes ns /\ reads (new_input nel lsps) script ns = (xs, j, rest) /\ reached_end xs /\ bytes_given rs = encode_all (received xs).
Proof.
  intros nel lsps script l sizes n rs t' LS H. apply Forall_app in LS. destruct LS as [LS LN]. apply Forall_inv in LN. apply take_more in H. destruct H as (r1 & b1 & r2 & b2 & E1 & E2 & E3).
  destruct (take_go _ _ _ _ _ _ _ _ _ _ (ran_take nel lsps script l) LS E1) as (ns & xs & k & S & B & _). cbn [take_reads] in E2. destruct (take_read b1 n) as [r b3] eqn:ER. injection E2 as <- <-.
  injection E3 as E3 ->. apply app_inj_tail in E3. destruct E3 as [-> <-]. cbn [limit app] in *.
  destruct (take_spec _ _ _ _ _ _ _ _ _ _ S LN ER) as [(Z & _)|[(_ & X & _)|(L & x & cs & (S1 & S2 & S3 & _) & LE & _ & EN & _)]]; [left; lia|discriminate|right].
  rewrite (EN eq_refl) in *. cbn [plain unread] in S3. rewrite !app_nil_r in S3. exists (ns ++ [Nat.min n (limit b1)]), (xs ++ [(ROk 0 End, cs)]), (state_of (taken b3)), (stream_of (taken b3)).
  split; [exact S1|]. split; [exact S2|]. split; [now exists xs, 0%nat, cs|]. exact S3.
Qed.
Lemma take_count : forall sizes a rs b, take_reads a sizes = (rs, b) -> length rs = length sizes.
Proof.
  induction sizes as [|n sizes IH]; intros a rs b H; cbn [take_reads] in H; [now injection H as <- _|].
  destruct (take_read a n) as [r c]. destruct (take_reads c sizes) as [x y] eqn:E. injection H as <- _. cbn. f_equal. exact (IH _ _ _ E).
Qed.
Lemma split_at : forall (A B : Type) (l : list A) (r1 : list B) x r2, length (r1 ++ x :: r2) = length l -> exists s1 n s2, l = (s1 ++ [n]) ++ s2 /\ length s1 = length r1.
Proof.
  intros A B l r1. revert l. induction r1 as [|y r1 IH]; intros [|n l] x r2 H; cbn in H; try discriminate.
  - exists [], n, l. auto.
  - injection H as H. destruct (IH _ _ _ H) as (s1 & m & s2 & -> & L). exists (n :: s1), m, s2. cbn. auto.
Qed.
Lemma app_same_length : forall (A : Type) (a b c d : list A), a ++ b = c ++ d -> length a = length c -> a = c /\ b = d.
Proof. induction a as [|x a IH]; intros b [|y c] d E L; try discriminate; [auto|]. cbn in *. injection E as -> E. injection L as L. destruct (IH _ _ _ E L) as [-> ->]. auto. Qed.
Lemma take_in_end : forall nel lsps script l sizes rs t', legal_sizes sizes -> take_reads (mktake (new_reader nel lsps script) l) sizes = (rs, t') -> In (BOk []) rs ->
  exists r1 more, bytes_given rs = bytes_given r1 ++ more /\
  (length (bytes_given r1) = l \/ exists ns xs j rest, legal_sizes ns /\ reads (new_input nel lsps) script ns = (xs, j, rest) /\ reached_end xs /\ bytes_given r1 = encode_all (received xs)).
Proof.
  intros nel lsps script l sizes rs t' LS H I. apply in_split in I. destruct I as (r1 & r2 & ->). destruct (split_at _ _ _ _ _ _ (take_count _ _ _ _ H)) as (s1 & n & s2 & -> & LS1).
  destruct (take_more _ _ _ _ H) as (q1 & b1 & q2 & b2 & E1 & _ & E3). injection E3 as E3 _. apply Forall_app in LS. destruct LS as [LSA _].
  pose proof (take_count _ _ _ _ E1) as LQ. rewrite app_length in LQ. cbn [length] in LQ. change (BOk [] :: r2) with ([BOk []] ++ r2) in E3. rewrite app_assoc in E3.
  destruct (app_same_length _ _ _ _ _ E3) as [Q _]; [rewrite app_length; cbn; lia|]. rewrite <- Q in E1.
  exists r1, (bytes_given r2). split; [unfold bytes_given; rewrite flat_map_app; reflexivity|]. exact (take_end _ _ _ _ _ _ _ _ LSA E1).
Qed.
Lemma take_ends_go : forall k nel lsps script g t ns xs sizes rs t', (remaining (taken t) < k)%nat -> ran nel lsps script g (taken t) ns xs -> length sizes = k -> legal_sizes sizes -> take_reads t sizes = (rs, t') ->
  In (BOk []) rs \/ In BErr rs.
Proof.
  induction k as [|k IH]; intros nel lsps script g t ns xs sizes rs t' M S LN F H; [lia|]. destruct sizes as [|n sizes]; [discriminate|]. inversion F as [|? ? F1 F2]; subst.
  cbn [take_reads] in H. destruct (take_read t n) as [r b1] eqn:E1. destruct (take_reads b1 sizes) as [rs' b2] eqn:E2. injection H as <- <-.
  destruct (take_spec _ _ _ _ _ _ _ _ _ _ S F1 E1) as [(Z & -> & _)|[(Z & -> & _)|(L & x & cs & S1 & LE & _ & EN & _ & PR)]]; [left; now left|right; now left|].
  destruct PR as [->|P]; [left; now left|]. assert (M1 : (remaining (taken b1) < k)%nat) by lia. assert (LK : length sizes = k) by (cbn in LN; lia).
  destruct (IH _ _ _ _ _ _ _ _ _ _ M1 S1 LK F2 E2) as [I|I]; [left|right]; now right.
Qed.
Theorem take_ends : forall nel lsps script l, exists k, forall sizes rs t', (k <= length sizes)%nat -> legal_sizes sizes ->
  take_reads (mktake (new_reader nel lsps script) l) sizes = (rs, t') -> In (BOk []) rs \/ In BErr rs.
Proof.
  intros nel lsps script l. exists (S (remaining (new_reader nel lsps script))). intros sizes rs b' L F H.
  rewrite <- (firstn_skipn (S (remaining (new_reader nel lsps script))) sizes) in H.
  destruct (take_more _ _ _ _ H) as (r1 & b1 & r2 & b2 & E1 & _ & E3). injection E3 as -> _.
  destruct (take_ends_go (S (remaining (new_reader nel lsps script))) _ _ _ _ (mktake (new_reader nel lsps script) l) _ _ _ _ _ (le_n _) (ran_take nel lsps script l) (firstn_length_le _ L) (Forall_firstn _ _ _ _ F) E1); [left|right]; apply in_or_app; now left.
Qed.

(** * A limit beyond the text *)
Lemma received_is_prefix : forall nel lsps script t ns xs j rest, no_fail script -> gives nel lsps script t -> reads (new_input nel lsps) script ns = (xs, j, rest) ->
  (exists more, t = received xs ++ more) /\ (reached_end xs -> t = received xs).
Proof.
  intros nel lsps script t ns xs j rest NF (s2 & r2 & j2 & rest2 & R & RE & D) H. rewrite <- (received_delivered _ _ _ _ _ _ (wf_new _ _) NF R) in D. subst t.
  exact (sizes_do_not_matter_received _ _ _ _ _ _ _ _ _ _ _ R H NF RE).
Qed.
Lemma app_bytes : forall rs rs', bytes_given (rs ++ rs') = bytes_given rs ++ bytes_given rs'.
Proof. intros. apply flat_map_app. Qed.
Lemma take_nofail : forall sizes nel lsps script t0 g t ns xs rs t', no_fail script -> gives nel lsps script t0 -> no_fail (stream_of (taken t)) -> ran nel lsps script g (taken t) ns xs -> legal_sizes sizes ->
  (str_len t0 + 136 <= length g + limit t)%nat -> take_reads t sizes = (rs, t') -> ~ In BErr rs.
Proof.
  induction sizes as [|n sizes IH]; intros nel lsps script t0 g t ns xs rs t' NF G NS S LS B H; cbn [take_reads] in H; [injection H as <- <-; intros []|].
  destruct (take_read t n) as [r b1] eqn:E1. destruct (take_reads b1 sizes) as [rs' b2] eqn:E2. injection H as <- <-. inversion LS as [|? ? N1 LS']; subst.
  assert (GL : (length g <= str_len t0)%nat).
  { destruct S as (_ & S2 & S3 & _). cbn [plain unread] in S3. rewrite app_nil_r in S3. subst g. rewrite encode_all_length. destruct (proj1 (received_is_prefix _ _ _ _ _ _ _ _ NF G S2)) as [m ->]. rewrite Utf8Facts.str_len_app. lia. }
  destruct (take_spec _ _ _ _ _ _ _ _ _ _ S N1 E1) as [(Z & _)|[(Z & _)|(L & x & cs & S1 & LE & NE & EN & _ & PR)]]; [lia|lia|].
  destruct (NE NS) as [NE1 NE2]. intros [I|I]; [congruence|]. assert (B1 : (str_len t0 + 136 <= length (g ++ bytes_given [r]) + limit b1)%nat) by (rewrite app_length; lia).
  exact (IH _ _ _ _ _ _ _ _ _ _ NF G NE2 S1 LS' B1 E2 I).
Qed.
(** After Ok(0) nothing more comes. *)
Lemma prefix_len : forall a b c : list N, a = b ++ c -> (length a <= length b)%nat -> c = [].
Proof. intros a b c -> L. rewrite app_length in L. destruct c; [reflexivity|cbn in L; lia]. Qed.
Theorem take_beyond : forall nel lsps script t l, no_fail script -> gives nel lsps script t -> (str_len t + 136 <= l)%nat ->
  exists k, forall sizes rs t', (k <= length sizes)%nat -> legal_sizes sizes -> take_reads (mktake (new_reader nel lsps script) l) sizes = (rs, t') ->
  bytes_given rs = encode_all t /\ ~ In BErr rs.
Proof.
  intros nel lsps script t l NF G L. destruct (take_ends nel lsps script l) as [k K]. exists k. intros sizes rs t' LN LS H.
  assert (NE : ~ In BErr rs) by exact (take_nofail _ _ _ _ _ _ (mktake (new_reader nel lsps script) l) _ _ _ _ NF G NF (ran_take nel lsps script l) LS L H).
  split; [|exact NE]. destruct (K _ _ _ LN LS H) as [I|I]; [|contradiction].
  destruct (take_text _ _ _ _ _ _ _ LS H) as (ns & xs & kk & _ & R & EQ & LL & _). destruct (received_is_prefix _ _ _ _ _ _ _ _ NF G R) as [[m M] _].
  destruct (take_in_end _ _ _ _ _ _ _ LS H I) as (r1 & more & EM & ED). apply (f_equal (@length N)) in EM. rewrite app_length in EM.
  assert (FULL : (str_len t <= length (bytes_given r1))%nat).
  { destruct ED as [E|(ns2 & xs2 & j2 & rest2 & _ & R2 & RE2 & EQ2)]; [lia|]. rewrite EQ2, encode_all_length. destruct (received_is_prefix _ _ _ _ _ _ _ _ NF G R2) as [_ X]. rewrite (X RE2). lia. }
  rewrite EQ, M. assert (m = []).
  { assert (Z : (str_len t <= str_len (received xs))%nat) by (rewrite <- (encode_all_length (received xs)), <- EQ; lia).
    rewrite M, Utf8Facts.str_len_app in Z. apply str_len_zero. lia. }
  subst m. now rewrite app_nil_r.
Qed.
(** A shorter limit: an error, unless it is met exactly. *)
Theorem take_cut : forall nel lsps script t l, no_fail script -> gives nel lsps script t -> (l < str_len t)%nat ->
  exists k, forall sizes rs t', (k <= length sizes)%nat -> legal_sizes sizes -> take_reads (mktake (new_reader nel lsps script) l) sizes = (rs, t') ->
  length (bytes_given rs) = l \/ In BErr rs.
Proof.
  intros nel lsps script t l NF G L. destruct (take_ends nel lsps script l) as [k K]. exists k. intros sizes rs t' LN LS H. destruct (K _ _ _ LN LS H) as [I|I]; [left|now right].
  destruct (take_text _ _ _ _ _ _ _ LS H) as (_ & _ & _ & _ & _ & _ & LL & _). destruct (take_in_end _ _ _ _ _ _ _ LS H I) as (r1 & more & EM & ED). apply (f_equal (@length N)) in EM. rewrite app_length in EM.
  destruct ED as [E|(ns2 & xs2 & j2 & rest2 & _ & R2 & RE2 & EQ2)]; [lia|]. apply (f_equal (@length N)) in EQ2. rewrite encode_all_length in EQ2.
  destruct (received_is_prefix _ _ _ _ _ _ _ _ NF G R2) as [_ X]. rewrite <- (X RE2) in EQ2. lia.
Qed.
Theorem take_short : forall nel lsps script l sizes, (0 < l < 136)%nat ->
  take_reads (mktake (new_reader nel lsps script) l) sizes = (map (fun _ => BErr) sizes, mktake (new_reader nel lsps script) l).
Proof. intros nel lsps script l sizes L. destruct (take_reads (mktake (new_reader nel lsps script) l) sizes) as [rs t'] eqn:E. destruct (take_short_stays sizes (mktake (new_reader nel lsps script) l) _ _ L E) as [-> ->]. reflexivity. Qed.

(** * Chain *)
Section Chained.
Variables (nel1 lsps1 nel2 lsps2 : bool) (script1 script2 : list event).
Definition linked (g : list N) (c : chain) (xs1 xs2 : list (read_result * list N)) : Prop :=
  exists ns1 ns2 g1 g2, g = g1 ++ g2 /\ ran nel1 lsps1 script1 g1 (first c) ns1 xs1 /\ ran nel2 lsps2 script2 g2 (second c) ns2 xs2 /\
  (if done_first c then reached_end xs1 else g2 = [] /\ ns2 = [] /\ xs2 = []).
Definition both (c : chain) : nat := (remaining (second c) + (if done_first c then 0 else S (remaining (first c))))%nat.
Lemma second_spec : forall g c xs1 xs2 n r c', linked g c xs1 xs2 -> done_first c = true -> (136 <= n)%nat -> chain_second c n = (r, c') ->
  exists x cs, linked (g ++ bytes_given [r]) c' xs1 (xs2 ++ [(x, cs)]) /\ done_first c' = true /\
  (no_fail (stream_of (first c)) -> no_fail (stream_of (second c)) -> r <> BErr /\ no_fail (stream_of (first c')) /\ no_fail (stream_of (second c'))) /\
  (r = BOk [] -> reached_end (xs2 ++ [(x, cs)])) /\ reads_failed [(x, cs)] = errors_given [r] /\ (r = BOk [] \/ (both c' < both c)%nat).
Proof.
  intros g c xs1 xs2 n r c' (ns1 & ns2 & g1 & g2 & -> & S1 & S2 & D) DF N H. rewrite DF in D. unfold chain_second in H. destruct (std_read (second c) n) as [r0 k] eqn:E. injection H as <- <-.
  destruct (std_read_spec _ _ _ _ _ _ _ _ _ _ S2 N E) as (x & cs & R & LE & NF & EN & ER & PR). cbv zeta in R. exists x, cs. rewrite app_one_given. cbn [first second done_first].
  split; [|split; [exact DF|split; [|split; [|split; [exact ER|]]]]].
  - exists ns1, (ns2 ++ [n]), g1, (g2 ++ match r0 with BOk bs => bs | _ => [] end). cbn [first second done_first]. rewrite DF. split; [now rewrite app_assoc|]. auto.
  - intros F1 F2. destruct (NF F2) as [A B]. auto.
  - intro Z. rewrite (EN Z). now exists xs2, 0%nat, cs.
  - destruct PR as [P|P]; [now left|right]. unfold both. cbn [first second done_first]. rewrite DF. lia.
Qed.
Lemma chain_spec : forall g c xs1 xs2 n r c', linked g c xs1 xs2 -> (136 <= n)%nat -> chain_read c n = (r, c') ->
  exists ys1 ys2, linked (g ++ bytes_given [r]) c' (xs1 ++ ys1) (xs2 ++ ys2) /\ (done_first c = true -> done_first c' = true) /\
  (no_fail (stream_of (first c)) -> no_fail (stream_of (second c)) -> r <> BErr /\ no_fail (stream_of (first c')) /\ no_fail (stream_of (second c'))) /\
  (r = BOk [] -> reached_end (xs1 ++ ys1) /\ reached_end (xs2 ++ ys2)) /\ (reads_failed ys1 + reads_failed ys2 = errors_given [r])%nat /\ (r = BOk [] \/ (both c' < both c)%nat).
Proof.
  intros g c xs1 xs2 n r c' L N H. unfold chain_read in H. destruct (done_first c) eqn:DF.
  - destruct (second_spec _ _ _ _ _ _ _ L DF N H) as (x & cs & L' & DF' & NF & EN & ER & PR). exists [], [(x, cs)]. rewrite app_nil_r. split; [exact L'|]. split; [auto|]. split; [exact NF|]. split; [|split; [exact ER|exact PR]].
    intro Z. split; [|auto]. destruct L as (ns1 & ns2 & g1 & g2 & _ & _ & _ & D). now rewrite DF in D.
  - destruct L as (ns1 & ns2 & g1 & g2 & -> & S1 & S2 & D). rewrite DF in D. destruct D as (-> & -> & ->). destruct (std_read (first c) n) as [r0 k] eqn:E.
    destruct (std_read_spec _ _ _ _ _ _ _ _ _ _ S1 N E) as (x & cs & R & LE & NF & EN & ER & PR). cbv zeta in R. rewrite app_nil_r.
    assert (STAY : r0 <> BOk [] -> (r, c') = (r0, mkchain k (second c) false) -> exists ys1 ys2, linked (g1 ++ bytes_given [r]) c' (xs1 ++ ys1) ([] ++ ys2) /\ (false = true -> done_first c' = true) /\
      (no_fail (stream_of (first c)) -> no_fail (stream_of (second c)) -> r <> BErr /\ no_fail (stream_of (first c')) /\ no_fail (stream_of (second c'))) /\
      (r = BOk [] -> reached_end (xs1 ++ ys1) /\ reached_end ([] ++ ys2)) /\ (reads_failed ys1 + reads_failed ys2 = errors_given [r])%nat /\ (r = BOk [] \/ (both c' < both c)%nat)).
    { intros NZ Z. injection Z as -> ->. exists [(x, cs)], []. rewrite app_one_given. cbn [first second done_first]. split; [|split; [discriminate|split; [|split; [contradiction|split]]]].
      - exists (ns1 ++ [n]), [], (g1 ++ match r0 with BOk bs => bs | _ => [] end), []. rewrite app_nil_r. cbn [first second done_first app]. auto 8.
      - intros F1 F2. destruct (NF F1). auto.
      - rewrite <- ER. cbn [reads_failed filter length]. apply Nat.add_0_r.
      - destruct PR as [P|P]; [now left|right]. unfold both. cbn [first second done_first]. rewrite DF. lia. }
    destruct r0 as [[|b bs]| |]; [|apply STAY; [discriminate|now symmetry]..].
    replace (Nat.eqb n 0) with false in H by (symmetry; apply Nat.eqb_neq; lia).
    assert (L2 : linked g1 (mkchain k (second c) true) (xs1 ++ [(x, cs)]) []).
    { exists (ns1 ++ [n]), [], g1, []. rewrite app_nil_r in R |- *. cbn [first second done_first]. split; [reflexivity|]. split; [exact R|]. split; [exact S2|]. rewrite (EN eq_refl). now exists xs1, 0%nat, cs. }
    destruct (second_spec _ _ _ _ _ _ _ L2 eq_refl N H) as (x2 & cs2 & L' & DF' & NF' & EN' & ER' & PR'). exists [(x, cs)], [(x2, cs2)]. cbn [app].
    split; [exact L'|]. split; [auto|]. split.
    { intros F1 F2. destruct (NF F1). apply NF'; auto. }
    split; [intro Z; split; [rewrite (EN eq_refl); now exists xs1, 0%nat, cs|auto]|]. split; [rewrite ER, ER'; reflexivity|].
    destruct PR' as [P|P]; [now left|right]. unfold both in *. cbn [first second done_first] in *. rewrite DF' in *. rewrite DF.
    lia.
Qed.
Lemma linked_new : linked [] (mkchain (new_reader nel1 lsps1 script1) (new_reader nel2 lsps2 script2) false) [] [].
Proof. exists [], [], [], []. cbn. split; [reflexivity|]. split; [apply ran_new|]. split; [apply ran_new|auto]. Qed.
Lemma chain_go : forall sizes g c xs1 xs2 rs c', linked g c xs1 xs2 -> legal_sizes sizes -> chain_reads c sizes = (rs, c') ->
  exists ys1 ys2, linked (g ++ bytes_given rs) c' (xs1 ++ ys1) (xs2 ++ ys2) /\ (reads_failed ys1 + reads_failed ys2 = errors_given rs)%nat /\
  (no_fail (stream_of (first c)) -> no_fail (stream_of (second c)) -> ~ In BErr rs).
Proof.
  induction sizes as [|n sizes IH]; intros g c xs1 xs2 rs c' L LS H; cbn [chain_reads] in H.
  - injection H as <- <-. exists [], []. cbn [bytes_given flat_map]. rewrite !app_nil_r. split; [exact L|]. split; [reflexivity|]. intros _ _ [].
  - destruct (chain_read c n) as [r c1] eqn:E1. destruct (chain_reads c1 sizes) as [rs' c2] eqn:E2. injection H as <- <-. inversion LS as [|? ? N1 LS']; subst.
    destruct (chain_spec _ _ _ _ _ _ _ L N1 E1) as (y1 & y2 & L1 & _ & NF & _ & ER & _). destruct (IH _ _ _ _ _ _ L1 LS' E2) as (z1 & z2 & L2 & ER2 & NF2).
    exists (y1 ++ z1), (y2 ++ z2). rewrite cons_given, cons_errors, !failed_app, !app_assoc. split; [exact L2|]. split; [lia|]. intros F1 F2. destruct (NF F1 F2) as (A & B & C). intros [I|I]; [congruence|]. now apply (NF2 B C).
Qed.
Lemma chain_more : forall sizes1 sizes2 a b, chain_reads a (sizes1 ++ sizes2) = b -> exists r1 b1 r2 b2, chain_reads a sizes1 = (r1, b1) /\ chain_reads b1 sizes2 = (r2, b2) /\ b = (r1 ++ r2, b2).
Proof.
  induction sizes1 as [|n t IH]; intros sizes2 a b H; cbn [app chain_reads] in *.
  - destruct (chain_reads a sizes2) as [r2 b2] eqn:E. exists [], a, r2, b2. auto.
  - destruct (chain_read a n) as [r a1]. destruct (chain_reads a1 (t ++ sizes2)) as [rs a2] eqn:E. destruct (IH _ _ _ E) as (r1 & b1 & r2 & b2 & E1 & E2 & E3). injection E3 as -> ->.
    exists (r :: r1), b1, r2, b2. rewrite E1. subst b. auto.
Qed.
Lemma chain_ends_go : forall k g c xs1 xs2 sizes rs c', (both c < k)%nat -> linked g c xs1 xs2 -> length sizes = k -> legal_sizes sizes -> chain_reads c sizes = (rs, c') -> In (BOk []) rs.
Proof.
  induction k as [|k IH]; intros g c xs1 xs2 sizes rs c' M L LN F H; [lia|]. destruct sizes as [|n sizes]; [discriminate|]. inversion F as [|? ? F1 F2]; subst.
  cbn [chain_reads] in H. destruct (chain_read c n) as [r c1] eqn:E1. destruct (chain_reads c1 sizes) as [rs' c2] eqn:E2. injection H as <- <-.
  destruct (chain_spec _ _ _ _ _ _ _ L F1 E1) as (y1 & y2 & L1 & _ & _ & _ & _ & PR). destruct PR as [->|P]; [now left|right].
  assert (M1 : (both c1 < k)%nat) by lia. assert (LK : length sizes = k) by (cbn in LN; lia). exact (IH _ _ _ _ _ _ _ M1 L1 LK F2 E2).
Qed.
End Chained.

Theorem chain_text : forall nel1 lsps1 nel2 lsps2 script1 script2 sizes rs c', legal_sizes sizes -> chain_reads (new_chain nel1 lsps1 nel2 lsps2 script1 script2) sizes = (rs, c') ->
  exists ns1 xs1 ns2 xs2, legal_sizes ns1 /\ legal_sizes ns2 /\ reads (new_input nel1 lsps1) script1 ns1 = (xs1, state_of (first c'), stream_of (first c')) /\
  reads (new_input nel2 lsps2) script2 ns2 = (xs2, state_of (second c'), stream_of (second c')) /\ (ns2 = [] \/ reached_end xs1) /\
  bytes_given rs = encode_all (received xs1 ++ received xs2) /\ errors_given rs = (reads_failed xs1 + reads_failed xs2)%nat.
Proof.
  intros nel1 lsps1 nel2 lsps2 script1 script2 sizes rs c' LS H. destruct (chain_go _ _ _ _ _ _ _ _ _ _ _ _ _ (linked_new nel1 lsps1 nel2 lsps2 script1 script2) LS H) as (xs1 & xs2 & L & ER & _).
  destruct L as (ns1 & ns2 & g1 & g2 & EG & (A1 & A2 & A3 & _) & (B1 & B2 & B3 & _) & D). cbn [app plain unread] in *. rewrite app_nil_r in A3, B3. subst g1 g2.
  exists ns1, xs1, ns2, xs2. split; [exact A1|]. split; [exact B1|]. split; [exact A2|]. split; [exact B2|]. split; [destruct (done_first c'); [now right|left; apply D]|].
  split; [now rewrite EG, encode_all_app|lia].
Qed.
Theorem chain_no_error : forall nel1 lsps1 nel2 lsps2 script1 script2 sizes rs c', legal_sizes sizes -> no_fail script1 -> no_fail script2 ->
  chain_reads (new_chain nel1 lsps1 nel2 lsps2 script1 script2) sizes = (rs, c') -> ~ In BErr rs.
Proof.
  intros nel1 lsps1 nel2 lsps2 script1 script2 sizes rs c' LS N1 N2 H. destruct (chain_go _ _ _ _ _ _ _ _ _ _ _ _ _ (linked_new nel1 lsps1 nel2 lsps2 script1 script2) LS H) as (xs1 & xs2 & _ & _ & NF). now apply NF.
Qed.
(** Ok(0): both are at their end. *)
Theorem chain_end : forall nel1 lsps1 nel2 lsps2 script1 script2 sizes n rs c', legal_sizes (sizes ++ [n]) ->
  chain_reads (new_chain nel1 lsps1 nel2 lsps2 script1 script2) (sizes ++ [n]) = (rs ++ [BOk []], c') ->
  exists ns1 xs1 j1 rest1 ns2 xs2 j2 rest2, legal_sizes ns1 /\ legal_sizes ns2 /\ reads (new_input nel1 lsps1) script1 ns1 = (xs1, j1, rest1) /\ reads (new_input nel2 lsps2) script2 ns2 = (xs2, j2, rest2) /\
  reached_end xs1 /\ reached_end xs2 /\ bytes_given rs = encode_all (received xs1 ++ received xs2).
Proof.
  intros nel1 lsps1 nel2 lsps2 script1 script2 sizes n rs c' LS H. apply Forall_app in LS. destruct LS as [LS LN]. apply Forall_inv in LN. apply chain_more in H. destruct H as (r1 & b1 & r2 & b2 & E1 & E2 & E3).
  destruct (chain_go _ _ _ _ _ _ _ _ _ _ _ _ _ (linked_new nel1 lsps1 nel2 lsps2 script1 script2) LS E1) as (xs1 & xs2 & L & _). cbn [chain_reads] in E2. destruct (chain_read b1 n) as [r b3] eqn:ER. injection E2 as <- <-.
  injection E3 as E3 ->. apply app_inj_tail in E3. destruct E3 as [-> <-]. cbn [app] in L.
  destruct (chain_spec _ _ _ _ _ _ _ _ _ _ _ _ _ L LN ER) as (y1 & y2 & L' & _ & _ & EN & _). destruct (EN eq_refl) as [R1 R2].
  destruct L' as (ns1 & ns2 & g1 & g2 & EG & (A1 & A2 & A3 & _) & (B1 & B2 & B3 & _) & _). cbn [bytes_given flat_map app plain unread] in EG, A3, B3. rewrite app_nil_r in EG, A3, B3. subst g1 g2.
  exists ns1, (xs1 ++ y1), (state_of (first b3)), (stream_of (first b3)), ns2, (xs2 ++ y2), (state_of (second b3)), (stream_of (second b3)).
  do 6 (split; [assumption|]). now rewrite EG, encode_all_app.
Qed.
Theorem chain_ends : forall nel1 lsps1 nel2 lsps2 script1 script2, exists k, forall sizes rs c', (k <= length sizes)%nat -> legal_sizes sizes ->
  chain_reads (new_chain nel1 lsps1 nel2 lsps2 script1 script2) sizes = (rs, c') -> In (BOk []) rs.
Proof.
  intros. set (c := new_chain nel1 lsps1 nel2 lsps2 script1 script2). exists (S (both c)). intros sizes rs b' L F H. rewrite <- (firstn_skipn (S (both c)) sizes) in H.
  destruct (chain_more _ _ _ _ H) as (r1 & b1 & r2 & b2 & E1 & _ & E3). injection E3 as -> _. apply in_or_app. left.
  exact (chain_ends_go nel1 lsps1 nel2 lsps2 script1 script2 _ _ _ _ _ _ _ _ (le_n _) (linked_new nel1 lsps1 nel2 lsps2 script1 script2) (firstn_length_le _ L) (Forall_firstn _ _ _ _ F) E1).
Qed.

(** * Bytes *)
Theorem bytes_refused : forall fuel t, bytes_next (S fuel) t = Some (Some None, t).
Proof. intros. cbn [bytes_next]. now rewrite std_read_short by lia. Qed.
