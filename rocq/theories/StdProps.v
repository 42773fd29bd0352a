(** write_all, write_all_vectored and std::io::copy. *)
From Coq Require Import NArith Arith List Bool Lia ZifyBool ZifyNat ZifyN.
From Verif Require Import Base Ucd UcdTables Norm Chars TextTables TextUtils UcdFacts NormFacts CharFacts DocTable SpecText TextFacts PipelineFacts DocFacts IsoFacts
  Utf8 Utf8Facts Input Output ReadFacts ReadInv ReadSession SpecRead ScalarFacts ReadChunk SpecEscape EscapeFacts EscapeRun ReadProps KeepFacts ReadPieces SpecConv ConvFacts ReadMore
  SpecWrite WriteFacts WriteProps Strings StringFacts EdgeFacts Copy CopyProps CutProps StdIo SpecStd.
Import ListNotations.
Local Open Scope N_scope.
Arguments N.add : simpl never.
Arguments N.leb : simpl never.
Arguments N.ltb : simpl never.
Arguments N.eqb : simpl never.
Local Opaque pipeline.

(** * write_all *)
Lemma encode_all_nil : forall s, encode_all s = [] -> s = [].
Proof. intros [|c s] H; [reflexivity|]. apply (f_equal (@length N)) in H. rewrite encode_all_length in H. cbn [str_len length] in H. pose proof (utf8_len_pos c). lia. Qed.
Lemma write_all_bad : forall f w bs, bs <> [] -> decode1 bs = None -> write_all_go (S f) w bs = Some (Some EWUtf8, prepare_failure w).
Proof.
  intros f w bs NE D. cbn [write_all_go]. destruct bs as [|b bs]; [congruence|]. unfold write_bytes.
  assert (E : decode (b :: bs) = ([], b :: bs)) by (unfold decode; now apply decode_go_stuck). rewrite E. reflexivity.
Qed.
Definition wrote_spec (w : writer) (cs rest : list N) : wresult * writer :=
  match cs, rest with
  | [], [] => (None, w)
  | [], _ => (Some EWUtf8, prepare_failure w)
  | _, [] => write_str w cs
  | _, _ => match write_str w cs with (None, w1) => (Some EWUtf8, prepare_failure w1) | x => x end
  end.
Lemma write_all_decode : forall f w bs cs rest, decode bs = (cs, rest) -> (length bs <= f)%nat -> write_all_go f w bs = Some (wrote_spec w cs rest).
Proof.
  intros f w l cs rest ED L. destruct (decode_spec _ _ _ ED) as (SC & EB & DN). destruct cs as [|c cs].
  - cbn [encode_all flat_map app] in EB. subst rest. destruct l as [|b l]; [destruct f; reflexivity|].
    destruct f as [|f]; [cbn in L; lia|]. now rewrite write_all_bad by (assumption || discriminate).
  - assert (LP : (0 < length (encode_all (c :: cs)))%nat) by (rewrite encode_all_length; cbn [str_len]; pose proof (utf8_len_pos c); lia).
    destruct l as [|b l]; [apply (f_equal (@length N)) in EB; rewrite app_length in EB; cbn [length] in EB; lia|].
    destruct f as [|f]; [cbn in L; lia|]. cbn [write_all_go]. remember (b :: l) as bs eqn:EL. unfold write_bytes. rewrite ED. destruct rest as [|x rest]; cbn [wrote_spec].
    + rewrite app_nil_r in EB. destruct (write_str w (c :: cs)) as [[e|] w1] eqn:EW; [reflexivity|].
      rewrite EB. destruct (length (encode_all (c :: cs))) as [|n] eqn:EN; [lia|]. rewrite <- EN, skipn_all. destruct f; reflexivity.
    + destruct (write_str w (c :: cs)) as [[e|] w1] eqn:EW; [reflexivity|].
      assert (LN : (length bs - length (x :: rest))%nat = length (encode_all (c :: cs))) by (rewrite EB, app_length; lia).
      rewrite LN. destruct (length (encode_all (c :: cs))) as [|n] eqn:EN; [lia|]. rewrite <- EN.
      assert (SK : skipn (length (encode_all (c :: cs))) bs = x :: rest) by (rewrite EB, skipn_app, skipn_all, Nat.sub_diag; reflexivity). rewrite SK.
      assert (LL : (length (x :: rest) <= f)%nat) by (rewrite EB, app_length in L; lia). destruct f as [|f]; [cbn in LL; lia|].
      now rewrite write_all_bad by (assumption || discriminate).
Qed.
Lemma wrote_decode : forall w bs cs rest r w', decode bs = (cs, rest) -> wrote w bs r w' <-> wrote_spec w cs rest = (r, w').
Proof.
  intros w bs cs rest r w' ED. destruct (decode_spec _ _ _ ED) as (SC & EB & DN). split.
  - intro H. clear SC EB DN. inversion H as [|s ra wa SC NE EW|s rs e wa SC NE NR DN EW|s rs wa SC NE NR DN EW|rs NR DN]; subst.
    + injection ED as <- <-. reflexivity.
    + rewrite decode_encode_all in ED by assumption. injection ED as <- <-. destruct s; [congruence|exact EW].
    + rewrite decode_encode in ED by assumption. injection ED as <- <-. destruct s; [congruence|]. cbn [wrote_spec]. rewrite EW. destruct rs; [congruence|reflexivity].
    + rewrite decode_encode in ED by assumption. injection ED as <- <-. destruct s; [congruence|]. cbn [wrote_spec]. rewrite EW. destruct rs; [congruence|reflexivity].
    + assert (E : decode bs = ([], bs)) by (unfold decode; now apply decode_go_stuck). rewrite E in ED. injection ED as <- <-. destruct bs; [congruence|reflexivity].
  - intro H. destruct cs as [|c cs]; [|assert (NE : c :: cs <> []) by discriminate]; destruct rest as [|x rest]; cbn [wrote_spec] in H.
    + injection H as <- <-. cbn in EB. subst bs. constructor.
    + injection H as <- <-. cbn in EB. subst bs. apply wrote_first_bad; [discriminate|assumption].
    + rewrite app_nil_r in EB. subst bs. now apply wrote_text.
    + assert (NR : x :: rest <> []) by discriminate. subst bs. destruct (write_str w (c :: cs)) as [[e|] w1] eqn:EW; injection H as <- <-; [now apply wrote_part|now apply wrote_bad].
Qed.
Theorem write_all_iff : forall w bs r w', write_all w bs = Some (r, w') <-> wrote w bs r w'.
Proof.
  intros w bs r w'. destruct (decode bs) as [cs rest] eqn:ED. rewrite (wrote_decode _ _ _ _ _ _ ED). unfold write_all. rewrite (write_all_decode _ _ _ _ _ ED) by lia.
  split; [intro H; injection H as H; exact H|intros ->; reflexivity].
Qed.
Theorem write_all_total : forall w bs, write_all w bs <> None.
Proof. intros w bs. destruct (decode bs) as [cs rest] eqn:ED. unfold write_all. rewrite (write_all_decode _ _ _ _ _ ED) by lia. discriminate. Qed.
Lemma write_all_text : forall w s, scalars s -> s <> [] -> write_all w (encode_all s) = Some (write_str w s).
Proof.
  intros w s SC NE. unfold write_all. rewrite (write_all_decode _ _ _ _ _ (decode_encode_all s SC)) by lia. destruct s; [congruence|reflexivity].
Qed.

(** * write_all_vectored *)
Lemma advance_0 : forall bufs, (exists b t x, advance 0 bufs = (x :: b) :: t) \/ advance 0 bufs = [].
Proof.
  induction bufs as [|[|x b] t IH]; [now right|exact IH|]. left. now exists b, t, x.
Qed.
Lemma advance_concat : forall n bufs, concat (advance n bufs) = skipn n (concat bufs).
Proof.
  intros n bufs. revert n. induction bufs as [|b t IH]; intro n; cbn [advance concat]; [now rewrite skipn_nil|].
  destruct (Nat.leb_spec (length b) n).
  - rewrite IH, skipn_app. rewrite (skipn_all2 b) by assumption. reflexivity.
  - cbn [concat]. rewrite skipn_app. replace (n - length b)%nat with 0%nat by lia. reflexivity.
Qed.
Lemma each_skip : forall w t r w', wrote_each w t r w' -> wrote_each w ([] :: t) r w'.
Proof. intros. eapply each_next; [constructor|assumption]. Qed.
Lemma each_advance : forall w bufs r w', wrote_each w (advance 0 bufs) r w' -> wrote_each w bufs r w'.
Proof.
  intros w bufs r w'. induction bufs as [|[|x b] t IH]; cbn [advance length Nat.leb Nat.sub]; intro H; [exact H| |exact H]. apply each_skip. auto.
Qed.
Lemma vectored_go : forall f w bufs, (length (concat bufs) <= f)%nat -> (exists b t x, bufs = (x :: b) :: t) \/ bufs = [] ->
  exists r w', write_all_vectored_go f w bufs = Some (r, w') /\ wrote_each w bufs r w'.
Proof.
  induction f as [|f IH]; intros w bufs L [(b & t & x & ->)| ->].
  - cbn in L. lia.
  - exists None, w. split; [reflexivity|constructor].
  - cbn [write_all_vectored_go]. unfold write_vectored. cbn [find]. remember (x :: b) as bs eqn:EBS.
    destruct (decode bs) as [cs rest] eqn:ED. destruct (decode_spec _ _ _ ED) as (SC & EB & DN). unfold write_bytes. rewrite ED.
    destruct cs as [|c cs].
    + cbn [encode_all flat_map app] in EB. assert (ER : rest = x :: b) by congruence. rewrite ER. exists (Some EWUtf8), (prepare_failure w). split; [reflexivity|].
      apply each_stop. apply wrote_first_bad; [rewrite EBS; discriminate|rewrite EB; exact DN].
    + assert (NE : c :: cs <> []) by discriminate. assert (LP : (0 < length (encode_all (c :: cs)))%nat) by (rewrite encode_all_length; cbn [str_len]; pose proof (utf8_len_pos c); lia).
      destruct (write_str w (c :: cs)) as [[e|] w1] eqn:EW.
      { exists (Some e), w1. split; [destruct rest; reflexivity|]. apply each_stop. apply (wrote_decode _ _ _ _ _ _ ED). cbn [wrote_spec]. rewrite EW. destruct rest; reflexivity. }
      destruct rest as [|y rest].
      * rewrite app_nil_r in EB. rewrite <- EB in LP. destruct (length bs) as [|n] eqn:EN; [lia|]. rewrite <- EN.
        assert (EA : advance (length bs) (bs :: t) = advance 0 t) by (cbn [advance]; rewrite Nat.leb_refl, Nat.sub_diag; reflexivity). rewrite EA.
        destruct (IH w1 (advance 0 t)) as (r & w' & R & H).
        -- rewrite advance_concat. cbn [skipn]. cbn [concat] in L. rewrite app_length in L. lia.
        -- apply advance_0.
        -- exists r, w'. split; [exact R|]. apply (each_next _ _ _ w1); [|now apply each_advance]. apply (wrote_decode _ _ _ _ _ _ ED). exact EW.
      * assert (LN : (length bs - length (y :: rest))%nat = length (encode_all (c :: cs))) by (rewrite EB, app_length; lia).
        rewrite LN. destruct (length (encode_all (c :: cs))) as [|n] eqn:EN; [lia|]. rewrite <- EN.
        assert (SK : skipn (length (encode_all (c :: cs))) bs = y :: rest) by (rewrite EB, skipn_app, skipn_all, Nat.sub_diag; reflexivity).
        assert (EA : advance (length (encode_all (c :: cs))) (bs :: t) = (y :: rest) :: t).
        { cbn [advance]. rewrite SK. destruct (Nat.leb_spec (length bs) (length (encode_all (c :: cs)))) as [K|K]; [|reflexivity]. rewrite EB, app_length in K. cbn [length] in K. lia. }
        rewrite EA. destruct f as [|f].
        { exfalso. cbn [concat] in L. rewrite app_length, EB, app_length in L. cbn [length] in L. lia. }
        cbn [write_all_vectored_go]. unfold write_vectored. cbn [find]. unfold write_bytes.
        assert (E : decode (y :: rest) = ([], y :: rest)) by (unfold decode; now apply decode_go_stuck). rewrite E.
        exists (Some EWUtf8), (prepare_failure w1). split; [reflexivity|]. apply each_stop. apply (wrote_decode _ _ _ _ _ _ ED). cbn [wrote_spec]. now rewrite EW.
  - exists None, w. split; [reflexivity|constructor].
Qed.
Lemma each_unique : forall w bufs r w' r2 w2, wrote_each w bufs r w' -> wrote_each w bufs r2 w2 -> r = r2 /\ w' = w2.
Proof.
  assert (U : forall w b r w' r2 w2, wrote w b r w' -> wrote w b r2 w2 -> r = r2 /\ w' = w2).
  { intros w b r w' r2 w2 H1 H2. apply write_all_iff in H1, H2. rewrite H1 in H2. injection H2 as <- <-. auto. }
  intros w bufs r w' r2 w2 H. revert r2 w2. induction H as [w|w b t w1 r w' H1 H IH|w b t e w' H1]; intros r2 w2 H2;
    inversion H2 as [|b2 t2 w3 r3 w4 K1 K2|b2 t2 e2 w4 K1]; subst.
  - auto.
  - destruct (U _ _ _ _ _ _ H1 K1) as [_ <-]. now apply IH.
  - destruct (U _ _ _ _ _ _ H1 K1) as [X _]. discriminate.
  - destruct (U _ _ _ _ _ _ H1 K1) as [X _]. discriminate.
  - exact (U _ _ _ _ _ _ H1 K1).
Qed.
Theorem write_all_vectored_iff : forall w bufs r w', write_all_vectored w bufs = Some (r, w') <-> wrote_each w bufs r w'.
Proof.
  intros w bufs r w'. destruct (vectored_go (length (concat bufs)) w (advance 0 bufs)) as (r1 & w1 & R & H).
  - rewrite advance_concat. cbn [skipn]. lia.
  - apply advance_0.
  - apply each_advance in H. unfold write_all_vectored. rewrite R. split.
    + intro E. injection E as <- <-. exact H.
    + intro H2. destruct (each_unique _ _ _ _ _ _ H H2) as [-> ->]. reflexivity.
Qed.
Theorem write_all_vectored_total : forall w bufs, write_all_vectored w bufs <> None.
Proof.
  intros w bufs. destruct (vectored_go (length (concat bufs)) w (advance 0 bufs)) as (r1 & w1 & R & H).
  - rewrite advance_concat. cbn [skipn]. lia.
  - apply advance_0.
  - unfold write_all_vectored. rewrite R. discriminate.
Qed.

(** * std::io::copy *)
Lemma std_trace : forall fuel i sc w blen written res i' sc' w', wf i -> scal i -> script_scalars sc -> std_copy fuel i sc w blen written = Some (res, i', sc', w') ->
  exists k rs outs, reads i sc (repeat blen k) = (rs, i', sc') /\ do_ops w (map OpWriteStr (texts rs)) = (outs, w') /\ trace_ok written rs outs res.
Proof.
  induction fuel as [|f IH]; intros i sc w blen written res i' sc' w' W SI SS H; cbn [std_copy] in H; [discriminate|].
  destruct (read i sc blen) as [[[r cs] i1] sc1] eqn:ER. pose proof (read_wf _ _ _ _ _ _ _ W ER) as W1.
  destruct (read_scalars _ _ _ _ _ _ _ W SI SS ER) as (SC & SI1 & SS1).
  assert (CONT : forall w1 written1, std_copy f i1 sc1 w1 blen written1 = Some (res, i', sc', w') -> texts [(r, cs)] = [] -> w1 = w -> written1 = written -> received [(r, cs)] = [] ->
    exists k rs outs, reads i sc (repeat blen k) = (rs, i', sc') /\ do_ops w (map OpWriteStr (texts rs)) = (outs, w') /\ trace_ok written rs outs res).
  { intros w1 wr1 HC HT -> -> HR. destruct (IH _ _ _ _ _ _ _ _ _ W1 SI1 SS1 HC) as (k & rs & outs & R & D & T). exists (S k), ((r, cs) :: rs), outs.
    cbn [repeat reads]. rewrite ER, R. split; [reflexivity|].
    change (texts ((r, cs) :: rs)) with (texts ([(r, cs)] ++ rs)). unfold texts. rewrite flat_map_app. fold (texts [(r, cs)]) (texts rs). rewrite HT. split; [exact D|].
    assert (RE : received ((r, cs) :: rs) = received rs).
    { change ((r, cs) :: rs) with ([(r, cs)] ++ rs). unfold received. rewrite flat_map_app. fold (received [(r, cs)]) (received rs). now rewrite HR. }
    destruct res; cbn in *.
    - destruct T as ((rs' & ->) & T2 & T3). rewrite RE. split; [|auto]. exists ((r, cs) :: rs'). reflexivity.
    - destruct T as (T1 & rs' & r' & cs' & -> & T2). split; [exact T1|]. exists ((r, cs) :: rs'), r', cs'. auto.
    - exact T. }
  assert (STOP : forall rs, rs = [(r, cs)] -> texts rs = [] -> trace_ok written rs [] res -> (i', sc', w') = (i1, sc1, w) ->
    exists k rs outs, reads i sc (repeat blen k) = (rs, i', sc') /\ do_ops w (map OpWriteStr (texts rs)) = (outs, w') /\ trace_ok written rs outs res).
  { intros rs -> HT T E. injection E as -> -> ->. exists 1%nat, [(r, cs)], []. cbn [repeat reads]. rewrite ER, HT. auto. }
  destruct r as [[|n] s| |]; cbn [std_result] in H.
  - assert (cs = []) by (apply str_len_zero; symmetry; exact (read_count _ _ _ _ _ _ _ _ W ER)). subst cs.
    destruct s; [apply (CONT _ _ H); reflexivity|apply (CONT _ _ H); reflexivity|]. injection H as <- <- <- <-.
    apply (STOP [(ROk 0 End, [])]); try reflexivity. cbn. split; [exists []; reflexivity|]. split; [constructor|lia].
  - assert (NE : cs <> []) by (intros ->; apply read_count in ER; [discriminate|exact W]).
    assert (H' : match write_str w cs with
                 | (None, w1) => std_copy f i1 sc1 w1 blen (written + S n)
                 | (Some e, w1) => Some (CopyWrite e, i1, sc1, w1) end = Some (res, i', sc', w')).
    { rewrite (write_all_text w cs SC NE) in H. destruct (write_str w cs) as [[e|] w1]; destruct s; exact H. } clear H.
    destruct (write_str w cs) as [[e|] w1] eqn:EW.
    + injection H' as <- <- <- <-. exists 1%nat, [(ROk (S n) s, cs)], [Some e]. cbn [repeat reads]. rewrite ER. split; [reflexivity|].
      cbn [texts flat_map fst snd app map do_ops do_op]. rewrite EW. split; [reflexivity|]. exists []. split; [reflexivity|constructor].
    + destruct (IH _ _ _ _ _ _ _ _ _ W1 SI1 SS1 H') as (k & rs & outs & R & D & T). exists (S k), ((ROk (S n) s, cs) :: rs), (None :: outs).
      cbn [repeat reads]. rewrite ER, R. split; [reflexivity|]. cbn [texts flat_map fst snd app map do_ops do_op]. fold (texts rs). rewrite EW, D. split; [reflexivity|].
      assert (RE : received ((ROk (S n) s, cs) :: rs) = cs ++ received rs) by reflexivity.
      apply read_count in ER; [|exact W]. destruct res; cbn in *.
      * destruct T as ((rs' & ->) & T2 & T3). rewrite RE, str_len_app. split; [exists ((ROk (S n) s, cs) :: rs'); reflexivity|]. split; [now constructor|lia].
      * destruct T as (T1 & rs' & r' & cs' & -> & T2). split; [now constructor|]. exists ((ROk (S n) s, cs) :: rs'), r', cs'. auto.
      * destruct T as (outs' & -> & T2). exists (None :: outs'). split; [reflexivity|now constructor].
  - injection H as <- <- <- <-. apply (STOP [(RInvalid, cs)]); try reflexivity. cbn. split; [constructor|]. exists [], RInvalid, cs. auto.
  - injection H as <- <- <- <-. apply (STOP [(RErr, cs)]); try reflexivity. cbn. split; [constructor|]. exists [], RErr, cs. auto.
Qed.
Lemma std_total : forall fuel i sc w blen written D, wf i -> ainv D (abs_of i) -> (NORMALIZATION_BUFFER_SIZE <= blen)%nat -> (measure i sc < fuel)%nat ->
  std_copy fuel i sc w blen written <> None.
Proof.
  induction fuel as [|f IH]; intros i sc w blen written D W I B M; [lia|]. cbn [std_copy].
  destruct (read i sc blen) as [[[r cs] i1] sc1] eqn:ER. pose proof (read_wf _ _ _ _ _ _ _ W ER) as W1.
  destruct (read_progress0 _ _ _ _ _ _ _ _ W I B ER) as [[D' I'] [->|P]]; [discriminate|].
  destruct r as [[|n] s| |]; cbn [std_result].
  - destruct s; [apply (IH _ _ _ _ _ D')|apply (IH _ _ _ _ _ D')|discriminate]; auto; lia.
  - assert (K : forall w1 wr1, std_copy f i1 sc1 w1 blen wr1 <> None) by (intros; apply (IH _ _ _ _ _ D'); auto; lia).
    pose proof (write_all_total w (encode_all cs)) as WT. destruct (write_all w (encode_all cs)) as [[[e|] w1]|]; [| |congruence]; destruct s; try discriminate; apply K.
  - discriminate.
  - discriminate.
Qed.

(** the text of converting each piece *)
Lemma spec_strs : forall cr ps d, failed d = false -> outcomes d = [] -> Forall (fun t => t <> [] /\ forallb allowedb t = true) ps ->
  (fresh d = true -> starts_ok (concat ps)) ->
  spec_ops cr d (map OpWriteStr ps) =
    (map (fun _ => true) ps, mkdoc (text d ++ flat_map pipeline ps) (sent d ++ as_sent cr (flat_map pipeline ps)) (match ps with [] => fresh d | _ => false end) false []).
Proof.
  intros cr. induction ps as [|t ps IH]; intros d HF HO HN HS.
  - cbn [map spec_ops flat_map]. rewrite app_nil_r. replace (as_sent cr []) with (@nil N) by (destruct cr; reflexivity). rewrite app_nil_r.
    destruct d as [a b c e o]. cbn in *. now subst.
  - inversion HN as [|? ? [H1 HA] H2]; subst. cbn [map spec_ops spec_op]. unfold spec_write. rewrite HF, HA. cbn [negb]. unfold spec_send.
    replace (fresh d && negb (opt_all is_basic_text_start (head_opt (pipeline t)))) with false.
    2:{ destruct (fresh d); [|reflexivity]. rewrite pipeline_first. destruct t as [|c t]; [congruence|]. cbn. rewrite (HS eq_refl c (t ++ concat ps) eq_refl). reflexivity. }
    rewrite HO. rewrite IH; cbn [failed outcomes fresh text sent]; auto; [|discriminate].
    cbn [flat_map]. rewrite as_sent_app, !app_assoc. destruct ps; reflexivity.
Qed.
(** converting a piece of converted text *)
Lemma followed_other : forall x v, x <> CGJ -> followed (x :: v) = CGJ :: x :: v.
Proof. intros x v NX. unfold CGJ in *. cbn [followed]. destruct x as [|y]; [reflexivity|]. do 10 (destruct y as [y|y|]; try reflexivity). congruence. Qed.
Lemma prec_slice : forall a h t, prec_ok h (a ++ t) = true -> exists h', prec_ok h' t = true.
Proof.
  induction a as [|x a IH]; intros h t H; [eauto|]. cbn [app prec_ok] in H. apply andb_prop in H. destruct H as [_ H]. exact (IH _ _ H).
Qed.
Lemma preceded_slice : forall a t b, preceded (a ++ t ++ b) -> exists h, prec_ok h t = true.
Proof.
  intros a t b P. rewrite app_assoc in P. apply preceded_prefix in P. apply prec_ok_spec in P. exact (prec_slice _ _ _ P).
Qed.
Lemma pipeline_recopied : forall t h, is_basic_text_substr t = true -> prec_ok h t = true -> pipeline t = recopied t.
Proof.
  intros t h H P. assert (FIX : forall s, is_basic_text_substr s = true -> prec_ok false s = true -> pipeline s = s).
  { intros s HS PS. apply substr_ok_iff in HS. destruct HS as [C N]. now apply pipeline_fix. }
  destruct t as [|c u]; [apply FIX; auto|]. cbn [recopied prec_ok] in *. apply andb_prop in P. destruct P as [P1 P2]. destruct (is_assigned c) eqn:A.
  - apply FIX; [exact H|]. cbn [prec_ok]. now rewrite A, P2.
  - pose proof (unassigned_not_CGJ c A) as NC. rewrite NC in P2.
    assert (HU : is_basic_text_substr u = true) by (apply (substr_slice u (c :: u)); [|exact H]; exists [c], []; now rewrite app_nil_r).
    assert (CU : conv u = u) by (pose proof (FIX u HU P2) as K; rewrite seam_pipeline in K; unfold seam in K; now rewrite iso_fix in K).
    assert (IU : isolate_go true false u = followed u).
    { destruct u as [|x v]; [reflexivity|]. cbn [prec_ok] in P2. rewrite orb_false_r in P2. apply andb_prop in P2. destruct P2 as [AX P2].
      cbn [isolate_go]. rewrite AX. cbn [negb andb orb]. rewrite orb_false_r. destruct (N.eqb_spec x CGJ) as [->|NX]; cbn [negb].
      - now rewrite iso_fix.
      - rewrite iso_fix by exact P2. now rewrite followed_other. }
    rewrite seam_pipeline. unfold seam. cbn [isolate_go]. rewrite A, NC. cbn [negb andb orb].
    rewrite (conv_cons CGJ) by exact boring_CGJ. rewrite (conv_cons c) by now apply unassigned_boring. rewrite IU. change 0x34F with CGJ. f_equal. f_equal.
    destruct u as [|x v]; [unfold followed; change 0x34F with CGJ; rewrite (conv_cons CGJ) by exact boring_CGJ; now rewrite CU|]. destruct (N.eqb_spec x CGJ) as [->|NX]; [exact CU|].
    rewrite followed_other by exact NX. rewrite (conv_cons CGJ) by exact boring_CGJ. now rewrite CU.
Qed.
Definition cgjs (s : list N) : nat := length (filter (fun c => c =? 0x34F) s).
Lemma cgjs_app : forall a b, cgjs (a ++ b) = (cgjs a + cgjs b)%nat.
Proof. intros. unfold cgjs. now rewrite filter_app, app_length. Qed.
Lemma cgjs_cons : forall c s, cgjs (c :: s) = ((if (c =? 0x34F)%N then 1 else 0) + cgjs s)%nat.
Proof. intros c s. unfold cgjs. cbn [filter]. destruct (c =? 0x34F); reflexivity. Qed.
Lemma cgjs_sent : forall cr s, cgjs (as_sent cr s) = cgjs s.
Proof.
  intros [|] s; [|reflexivity]. cbn [as_sent]. induction s as [|c s IH]; [reflexivity|]. unfold expand. cbn [flat_map]. fold (expand s). rewrite cgjs_app, IH, cgjs_cons. f_equal.
  destruct (N.eqb_spec c 0xA) as [->|_]; [reflexivity|]. unfold cgjs. cbn [filter]. destruct (c =? 0x34F); reflexivity.
Qed.
Lemma recopied_assigned : forall t, begins_assigned t -> recopied t = t.
Proof. intros [|c u] H; [reflexivity|]. cbn [recopied]. now rewrite (H c u eq_refl). Qed.
Lemma recopied_cgjs : forall t, (cgjs t <= cgjs (recopied t))%nat /\ (cgjs (recopied t) = cgjs t -> begins_assigned t).
Proof.
  intros [|c u]; [split; [apply le_n|intros _ c u E; discriminate]|]. cbn [recopied]. destruct (is_assigned c) eqn:A.
  - split; [apply le_n|]. intros _ c' u' E. now injection E as <- <-.
  - assert (L : (S (cgjs (c :: u)) <= cgjs (CGJ :: c :: followed u))%nat).
    { rewrite !cgjs_cons. change (CGJ =? 0x34F) with true. cbv iota.
      assert (K : (cgjs u <= cgjs (followed u))%nat).
      { destruct u as [|x v]; [cbn; lia|]. destruct (N.eqb_spec x 0x34F) as [->|NX]; [apply le_n|].
        rewrite followed_other by exact NX. unfold CGJ. rewrite (cgjs_cons 0x34F). lia. }
      lia. }
    change 0x34F with CGJ. split; [lia|]. intro E. lia.
Qed.
Lemma recopied_exact : forall ps, flat_map recopied ps = concat ps <-> Forall begins_assigned ps.
Proof.
  intro ps. split.
  - intro E. apply (f_equal cgjs) in E. assert (G : (cgjs (concat ps) <= cgjs (flat_map recopied ps))%nat /\ (cgjs (flat_map recopied ps) = cgjs (concat ps) -> Forall begins_assigned ps)).
    { clear E. induction ps as [|t ps [I1 I2]]; [split; [apply le_n|constructor]|]. cbn [flat_map concat]. rewrite !cgjs_app. destruct (recopied_cgjs t) as [R1 R2].
      split; [lia|]. intro E. constructor; [apply R2|apply I2]; lia. }
    now apply G.
  - induction 1 as [|t ps H _ IH]; [reflexivity|]. cbn [flat_map concat]. now rewrite recopied_assigned, IH.
Qed.
Lemma recopied_sent : forall cr ps, as_sent cr (flat_map recopied ps) = as_sent cr (concat ps) <-> Forall begins_assigned ps.
Proof.
  intros cr ps. rewrite <- recopied_exact. split; [|now intros ->]. intro E. apply (f_equal cgjs) in E. rewrite !cgjs_sent in E.
  apply recopied_exact. revert E. induction ps as [|t ps IH]; [constructor|]. cbn [flat_map concat]. rewrite !cgjs_app. destruct (recopied_cgjs t) as [R1 R2]. intro E.
  assert (G : (cgjs (concat ps) <= cgjs (flat_map recopied ps))%nat).
  { clear. induction ps as [|t ps I1]; [apply le_n|]. cbn [flat_map concat]. rewrite !cgjs_app. destruct (recopied_cgjs t) as [R1 _]. lia. }
  constructor; [apply R2|apply IH]; lia.
Qed.
Lemma recopied_line : forall v, exists v', recopied (v ++ [LF]) = v' ++ [LF].
Proof.
  intros [|c v]; [exists []; reflexivity|]. cbn [app recopied]. destruct (is_assigned c); [exists (c :: v); reflexivity|].
  destruct (v ++ [LF]) as [|x q] eqn:E; [destruct v; discriminate|].
  destruct (N.eqb_spec x 0x34F) as [->|NX]; [exists (0x34F :: c :: v); cbn [followed app]; now rewrite <- E|].
  rewrite followed_other by exact NX. rewrite <- E. exists (0x34F :: c :: 0x34F :: v). reflexivity.
Qed.
Lemma recopied_lines : forall ps, Forall (fun t => t <> []) ps -> line_terminated (concat ps) -> line_terminated (flat_map recopied ps).
Proof.
  intros ps HN [E|[u E]].
  - left. destruct ps as [|t ps]; [reflexivity|]. inversion HN; subst. cbn in E. apply app_eq_nil in E. tauto.
  - right. destruct ps as [|t ps] using rev_ind; [destruct u; discriminate|]. clear IHps. rewrite concat_app in E. cbn [concat] in E. rewrite app_nil_r in E.
    apply Forall_app in HN. destruct HN as [_ HN]. inversion HN as [|? ? NT _]; subst.
    destruct t as [|y t] using rev_ind; [congruence|]. clear IHt. rewrite app_assoc in E. apply app_inj_tail in E. destruct E as [_ ->].
    destruct (recopied_line t) as [v' EV]. change 10 with LF. rewrite flat_map_app. cbn [flat_map]. rewrite app_nil_r, EV, app_assoc. eauto.
Qed.
Lemma texts_read_texts : forall sizes i sc rs j sc', wf i -> reads i sc sizes = (rs, j, sc') ->
  flat_map recopied (texts_read rs) = flat_map recopied (texts rs) /\ (Forall begins_assigned (texts_read rs) <-> Forall begins_assigned (texts rs)).
Proof.
  induction sizes as [|b sizes IH]; intros i sc rs j sc' W H; cbn [reads] in H.
  - injection H as <- <- <-. split; [reflexivity|]. split; constructor.
  - destruct (read i sc b) as [[[r cs] i1] sc1] eqn:ER. destruct (reads i1 sc1 sizes) as [[rs' j'] sc2] eqn:ERS. injection H as <- <- <-.
    destruct (IH _ _ _ _ _ (read_wf _ _ _ _ _ _ _ W ER) ERS) as [IH1 IH2]. cbn [texts texts_read flat_map fst snd]. fold (texts rs') (texts_read rs').
    destruct r as [[|n] s| |]; cbn [app flat_map]; auto.
    + rewrite (str_len_zero cs) by (symmetry; exact (read_count _ _ _ _ _ _ _ _ W ER)). cbn [recopied app]. split; [exact IH1|]. rewrite <- IH2. split.
      * intro K. now inversion K.
      * intro K. constructor; [intros c u E; discriminate|exact K].
    + rewrite IH1. split; [reflexivity|]. split; intro K; inversion K; subst; constructor; tauto.
Qed.
Lemma prec_pieces : forall ps h, prec_ok h (concat ps) = true -> Forall (fun t => exists h, prec_ok h t = true) ps.
Proof.
  induction ps as [|t ps IH]; intros h H; [constructor|]. cbn [concat] in H. destruct (prec_slice _ _ _ H) as [h2 H2]. constructor; [|exact (IH _ H2)].
  exists h. clear -H. revert h H. induction t as [|c t IH]; intros h H; [reflexivity|]. cbn [app prec_ok] in *. apply andb_prop in H. destruct H as [H1 H2]. now rewrite H1, (IH _ H2).
Qed.

Theorem std_copy_copies : forall nel lsps script blen cr p, no_fail script -> script_scalars script -> (136 <= blen)%nat ->
  exists n, forall fuel, (n <= fuel)%nat -> exists k rs j rest w,
    reads (new_input nel lsps) script (repeat blen k) = (rs, j, rest) /\ reached_end rs /\
    std_copy fuel (new_input nel lsps) script (new_writer cr false (mksink p [] false)) blen 0 = Some (CopyOk (str_len (received rs)), j, rest, w) /\
    emitted (inner w) = p ++ as_sent cr (flat_map recopied (texts_read rs)) /\ (exists w', close w = (None, w') /\ emitted (inner w') = emitted (inner w)) /\
    (emitted (inner w) = p ++ as_sent cr (received rs) <-> Forall begins_assigned (texts_read rs)).
Proof.
  intros nel lsps script blen cr p NF SS B. exists (S (measure (new_input nel lsps) script)). intros fuel HF.
  set (w0 := new_writer cr false (mksink p [] false)).
  destruct (std_copy fuel (new_input nel lsps) script w0 blen 0) as [[[[res j] rest] w]|] eqn:EC.
  2:{ exfalso. refine (std_total fuel _ _ w0 blen 0 [] (wf_new nel lsps) (new_ainv nel lsps) _ _ EC); [exact B|lia]. }
  destruct (std_trace _ _ _ _ _ _ _ _ _ _ (wf_new nel lsps) (scal_new nel lsps) SS EC) as (k & rs & outs & R & D & T).
  destruct (texts_received _ _ _ _ _ _ (wf_new nel lsps) R) as [TR TN]. destruct (received_substr _ _ _ _ _ _ _ R NF) as [SU ST].
  destruct (texts_read_texts _ _ _ _ _ _ (wf_new nel lsps) R) as [RT1 RT2].
  assert (PL : Forall plain_op (map OpWriteText (texts rs))) by (apply pieces_substr; [now rewrite TR|exact TN]). rewrite Forall_map in PL. cbn [plain_op] in PL.
  assert (PR : preceded (received rs)).
  { rewrite (received_delivered _ _ _ _ _ _ (wf_new nel lsps) NF R). destruct (delivered_prefix _ _ _ _ _ _ _ R) as [more E].
    apply (preceded_prefix _ more). rewrite <- E. apply converted_preceded. }
  apply prec_ok_spec in PR. rewrite <- TR in PR. apply prec_pieces in PR.
  assert (FM : flat_map pipeline (texts rs) = flat_map recopied (texts rs)).
  { clear -PL PR. induction (texts rs) as [|t ps IH]; [reflexivity|]. inversion PL as [|? ? [NE SB] PL2]; inversion PR as [|? ? [h HP] PR2]; subst. cbn [flat_map].
    rewrite (pipeline_recopied t h SB HP), IH; auto. }
  assert (AL : Forall (fun t => t <> [] /\ forallb allowedb t = true) (texts rs)).
  { eapply Forall_impl; [|exact PL]. intros t [NE SB]. split; [exact NE|]. apply all_allowed. now apply substr_ok_iff in SB. }
  assert (PO : Forall plain_op (map OpWriteStr (texts rs))) by (apply Forall_map; apply Forall_forall; intros; exact I).
  destruct (ops_refine _ cr _ _ (new_refines cr p []) PO) as [O1 O2]. fold w0 in O1, O2. rewrite D in O1, O2.
  assert (SP : fresh (new_doc p []) = true -> starts_ok (concat (texts rs))) by (intros _; now rewrite TR).
  rewrite (spec_strs cr (texts rs) (new_doc p []) eq_refl eq_refl AL SP) in O1, O2.
  cbn [fst snd text sent new_doc app] in O1, O2. rewrite FM in O2.
  assert (ALL : Forall (eq None) outs).
  { clear -O1. revert O1. generalize (texts rs). induction outs as [|o outs IH]; intros l H; [constructor|].
    destruct l as [|t l]; [discriminate|]. cbn in H. injection H as H1 H2. constructor; [now destruct o|eapply IH; eauto]. }
  pose proof (reads_valid _ _ _ _ _ _ (wf_new nel lsps) NF (legal_repeat blen k B) R) as RV.
  destruct res as [n| |e]; cbn [trace_ok] in T.
  - destruct T as (T1 & _ & ->). cbn [Nat.add]. assert (RE : reached_end rs) by (destruct T1 as [rs' ->]; now exists rs', 0%nat, []).
    exists k, rs, j, rest, w. split; [exact R|]. split; [exact RE|]. split; [reflexivity|].
    assert (EM : emitted (inner w) = p ++ as_sent cr (flat_map recopied (texts rs))) by apply O2. rewrite RT1. split; [exact EM|]. split.
    + destruct (session_is_text _ _ _ _ _ _ _ R NF RE) as [_ LT]. rewrite <- TR in LT. pose proof (recopied_lines _ TN LT) as LT2.
      destruct (op_refines cr _ _ OpClose O2 I) as [C1 C2]. cbn [do_op spec_op] in C1, C2. unfold spec_close in C1, C2. cbn [failed text] in C1, C2.
      assert (K : ok (fst (close w)) = true /\ emitted (inner (snd (close w))) = p ++ as_sent cr (flat_map recopied (texts rs))).
      { destruct LT2 as [E |[u E]]; rewrite E in *.
        - cbn in C1, C2. split; [exact C1|]. apply C2.
        - rewrite last_opt_snoc in C1, C2. change (10 =? 10) with true in C1, C2. cbv iota in C1, C2. split; [exact C1|]. apply C2. }
      destruct (close w) as [[e|] w']; cbn in K; [destruct K; discriminate|]. exists w'. split; [reflexivity|]. destruct K as [_ ->]. now rewrite EM.
    + rewrite RT2, EM, <- TR, <- (recopied_sent cr). split; [intro K; now apply app_inv_head in K|now intros ->].
  - exfalso. destruct T as (_ & rs' & r & cs & -> & T). apply Forall_app in RV. destruct RV as [_ RV]. inversion RV as [|? ? [V1 V2] _]; subst. cbn in V1, V2.
    destruct T; congruence.
  - exfalso. destruct T as (outs' & -> & _). apply Forall_app in ALL. destruct ALL as [_ ALL]. inversion ALL; discriminate.
Qed.
