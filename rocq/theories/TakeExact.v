(** Exactly when Take fails (C97). *)
From Coq Require Import NArith Arith List Bool Lia ZifyBool ZifyNat ZifyN.
From Verif Require Import Base Ucd UcdTables Norm Chars TextTables TextUtils UcdFacts NormFacts CharFacts DocTable SpecText TextFacts PipelineFacts DocFacts IsoFacts
  Utf8 Utf8Facts Input Output ReadFacts ReadInv ReadSession SpecRead ScalarFacts ReadChunk SpecEscape EscapeFacts EscapeRun ReadProps KeepFacts ReadPieces SpecConv ConvFacts ReadMore
  SpecWrite WriteFacts WriteProps Strings StringFacts EdgeFacts Copy CopyProps ExactProps StdIo SpecStd CutProps StdProps SizeProps SpecCat Lines SpecLine LineProps LineIo StdBuf SpecBuf BufProps StdAdapt AdaptProps.
From Verif Require ExactBuf.
Import ListNotations.
Local Open Scope N_scope.

(** A read that gets to the limit ends with a character of four bytes. *)
Lemma take_full : forall nel lsps script g t ns xs n r t' x cs, ran nel lsps script g (taken t) ns xs -> ran nel lsps script (g ++ bytes_given [r]) (taken t') (ns ++ [Nat.min n (limit t)]) (xs ++ [(x, cs)]) ->
  (0 < limit t)%nat -> (limit t = length (bytes_given [r]) + limit t')%nat -> limit t' = 0%nat -> exists u c, received (xs ++ [(x, cs)]) = u ++ [c] /\ 0x10000 <= c.
Proof.
  intros nel lsps script g t ns xs n r t' x cs (_ & S2 & S3 & W & _) (_ & T2 & T3 & _) L0 LE Z. cbn [plain unread under stream] in *. rewrite app_nil_r in S3, T3.
  destruct (read (state_of (taken t)) (stream_of (taken t)) (Nat.min n (limit t))) as [[[x' cs'] i'] sc'] eqn:ER.
  assert (R1 : reads (state_of (taken t)) (stream_of (taken t)) [Nat.min n (limit t)] = ([(x', cs')], i', sc')) by (cbn [reads]; now rewrite ER).
  pose proof (ExactBuf.reads_both _ _ _ _ _ _ _ _ _ _ S2 R1) as RB. rewrite T2 in RB. injection RB as RB _ _. apply app_inj_tail in RB. destruct RB as [_ RB]. injection RB as <- <-.
  unfold received in T3 |- *. rewrite flat_map_app in T3 |- *. fold (received xs) in T3 |- *. fold (received [(x, cs)]) in T3 |- *. rewrite S3, encode_all_app in T3. apply app_inv_head in T3.
  assert (LL : length (encode_all (received [(x, cs)])) = limit t) by (rewrite <- T3; lia). rewrite encode_all_length in LL. cbn [received flat_map fst snd] in LL.
  destruct x as [m s| |]; cbn [app str_len] in LL; rewrite ?app_nil_r in LL; [|lia|lia]. pose proof (read_count _ _ _ _ _ _ _ _ W ER) as EC. pose proof (read_length _ _ _ _ _ _ _ W ER) as EL.
  assert (EM : m = Nat.min n (limit t)) by lia. rewrite EM in ER. destruct (read_full _ _ _ _ _ _ _ W ER) as (u & c & -> & HC). exists (received xs ++ u), c. split; [|exact HC].
  cbn [received flat_map fst snd]. rewrite app_nil_r. apply app_assoc.
Qed.
Lemma take_met : forall sizes nel lsps script g t ns xs rs t', ran nel lsps script g (taken t) ns xs -> legal_sizes sizes -> (0 < limit t)%nat -> take_reads t sizes = (rs, t') -> limit t' = 0%nat ->
  exists ns' xs' u c, reads (new_input nel lsps) script ns' = (xs', state_of (taken t'), stream_of (taken t')) /\ g ++ bytes_given rs = encode_all (received xs') /\ received xs' = u ++ [c] /\ 0x10000 <= c.
Proof.
  induction sizes as [|n sizes IH]; intros nel lsps script g t ns xs rs t' S LS L0 H Z; cbn [take_reads] in H; [injection H as <- <-; lia|].
  destruct (take_read t n) as [r t1] eqn:E1. destruct (take_reads t1 sizes) as [rs' t2] eqn:E2. injection H as <- <-. inversion LS as [|? ? N1 LS']; subst.
  destruct (take_spec _ _ _ _ _ _ _ _ _ _ S N1 E1) as [(Y & _)|[(Y & -> & ->)|(L & x & cs & S1 & LE & _)]]; [lia|destruct (take_short_stays _ _ _ _ Y E2) as [_ ->]; lia|].
  rewrite cons_given, app_assoc. destruct (Nat.eq_dec (limit t1) 0) as [Z1|Z1]; [|apply (IH _ _ _ _ _ _ _ _ _ S1 LS' ltac:(lia) E2 Z)].
  destruct (take_full _ _ _ _ _ _ _ _ _ _ _ _ S S1 L0 LE Z1) as (u & c & EU & HC).
  assert (ST : bytes_given rs' = [] /\ t2 = t1).
  { clear -E2 Z1. revert rs' t2 E2. induction sizes as [|m sizes IH]; intros rs' t2 H; cbn [take_reads] in H; [injection H as <- <-; auto|].
    unfold take_read in H. rewrite Z1 in H. cbn [Nat.eqb] in H. destruct (take_reads t1 sizes) as [a b] eqn:E. injection H as <- <-. destruct (IH _ _ eq_refl) as [X ->]. split; [exact X|reflexivity]. }
  destruct ST as [-> ->]. destruct S1 as (_ & T2 & T3 & _). cbn [plain unread under stream] in *. rewrite app_nil_r in T3 |- *. eauto 10.
Qed.
(** Ok(0) is only given at the limit, or at the end of the stream with 136 bytes of it left. *)
Lemma take_zero : forall sizes nel lsps script g t ns xs rs t', ran nel lsps script g (taken t) ns xs -> legal_sizes sizes -> take_reads t sizes = (rs, t') -> In (BOk []) rs ->
  limit t' = 0%nat \/ exists ns' xs' g' m, ran nel lsps script g' (taken m) ns' xs' /\ reached_end xs' /\ (136 <= limit m)%nat /\ (length g + limit t = length g' + limit m)%nat.
Proof.
  induction sizes as [|n sizes IH]; intros nel lsps script g t ns xs rs t' S LS H I; cbn [take_reads] in H; [injection H as <- <-; destruct I|].
  destruct (take_read t n) as [r t1] eqn:E1. destruct (take_reads t1 sizes) as [rs' t2] eqn:E2. injection H as <- <-. inversion LS as [|? ? N1 LS']; subst.
  destruct (take_spec _ _ _ _ _ _ _ _ _ _ S N1 E1) as [(Y & -> & ->)|[(Y & -> & ->)|(L & x & cs & S1 & LE & _ & EN & _)]].
  - left. destruct (take_go _ _ _ _ _ _ _ _ _ _ S LS' E2) as (? & ? & ? & _ & B & _). lia.
  - destruct I as [I|I]; [discriminate|]. exact (IH _ _ _ _ _ _ _ _ _ S LS' E2 I).
  - destruct I as [->|I].
    + right. do 4 eexists. split; [exact S1|]. cbn [bytes_given flat_map app] in LE |- *. rewrite (EN eq_refl). split; [do 3 eexists; reflexivity|]. rewrite app_nil_r. cbn [length] in LE. lia.
    + destruct (IH _ _ _ _ _ _ _ _ _ S1 LS' E2 I) as [Z|(ns' & xs' & g' & m & A & B & C & D)]; [now left|right]. exists ns', xs', g', m. rewrite app_length in D. split; [exact A|]. split; [exact B|]. lia.
Qed.
Theorem take_exact : forall nel lsps script t l, no_fail script -> gives nel lsps script t -> (0 < l)%nat ->
  exists k, forall sizes rs t', (k <= length sizes)%nat -> legal_sizes sizes -> take_reads (mktake (new_reader nel lsps script) l) sizes = (rs, t') ->
  ((str_len t + 136 <= l)%nat -> bytes_given rs = encode_all t /\ ~ In BErr rs) /\
  ((l < str_len t + 136)%nat -> In BErr rs \/ exists u c v, t = u ++ c :: v /\ 0x10000 <= c /\ bytes_given rs = encode_all (u ++ [c]) /\ str_len (u ++ [c]) = l).
Proof.
  intros nel lsps script t l NF G L0. destruct (take_ends nel lsps script l) as [k1 K].
  assert (KB : exists k2, (str_len t + 136 <= l)%nat -> forall sizes rs t', (k2 <= length sizes)%nat -> legal_sizes sizes -> take_reads (mktake (new_reader nel lsps script) l) sizes = (rs, t') -> bytes_given rs = encode_all t /\ ~ In BErr rs).
  { destruct (le_lt_dec (str_len t + 136) l) as [A|A]; [destruct (take_beyond _ _ _ _ _ NF G A) as [k2 B]; exists k2; intros _; exact B|exists 0%nat; lia]. }
  destruct KB as [k2 KB]. exists (Nat.max k1 k2). intros sizes rs t' LN LS H. split; [intro A; apply (KB A sizes rs t'); auto; lia|]. intro A.
  destruct (K sizes rs t' ltac:(lia) LS H) as [I|I]; [right|now left].
  destruct (take_text _ _ _ _ _ _ _ LS H) as (ns & xs & kk & _ & R & EQ & LL & _).
  assert (Z : limit t' = 0%nat).
  { destruct (take_zero _ _ _ _ _ (mktake (new_reader nel lsps script) l) _ _ _ _ (ran_take nel lsps script l) LS H I) as [Z|(ns2 & xs2 & g2 & m & (_ & S2 & S3 & _) & RE & LM & LQ)]; [exact Z|exfalso].
    cbn [plain unread under stream] in *. rewrite app_nil_r in S3. destruct (received_is_prefix _ _ _ _ _ _ _ _ NF G S2) as [_ X]. rewrite <- (X RE) in S3. rewrite S3, encode_all_length in LQ. cbn [length limit] in LQ. lia. }
  destruct (take_met _ _ _ _ _ (mktake (new_reader nel lsps script) l) _ _ _ _ (ran_take nel lsps script l) LS L0 H Z) as (ns' & xs' & u & c & R3 & E3 & EU & HC). cbn [app] in E3.
  destruct (received_is_prefix _ _ _ _ _ _ _ _ NF G R3) as [[m M] _]. exists u, c, m. rewrite EU in M, E3. rewrite <- app_assoc in M. split; [exact M|]. split; [exact HC|]. split; [exact E3|].
  apply (f_equal (@length N)) in E3. rewrite encode_all_length in E3. lia.
Qed.
(** Without characters beyond U+FFFF: an error exactly when the limit is less than 136 bytes
    beyond the text. *)
Theorem take_exact_narrow : forall nel lsps script t l, no_fail script -> gives nel lsps script t -> (0 < l)%nat -> Forall (fun c => c < 0x10000) t ->
  exists k, forall sizes rs t', (k <= length sizes)%nat -> legal_sizes sizes -> take_reads (mktake (new_reader nel lsps script) l) sizes = (rs, t') ->
  (In BErr rs <-> (l < str_len t + 136)%nat).
Proof.
  intros nel lsps script t l NF G L0 F. destruct (take_exact _ _ _ _ _ NF G L0) as [k K]. exists k. intros sizes rs t' LN LS H. destruct (K _ _ _ LN LS H) as [A B]. split.
  - intro I. destruct (le_lt_dec (str_len t + 136) l) as [C|C]; [|exact C]. exfalso. now apply (proj2 (A C)).
  - intro C. destruct (B C) as [I|(u & c & v & -> & HC & _)]; [exact I|exfalso]. apply Forall_app in F. destruct F as [_ F]. apply Forall_inv in F. lia.
Qed.
