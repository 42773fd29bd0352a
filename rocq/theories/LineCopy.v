(** Copying from a BufReader to a LineWriter (C100). *)
From Coq Require Import NArith Arith List Bool Lia ZifyBool ZifyNat ZifyN.
From Verif Require Import Base Ucd UcdTables Norm Chars TextTables TextUtils UcdFacts NormFacts CharFacts DocTable SpecText TextFacts PipelineFacts DocFacts IsoFacts
  Utf8 Utf8Facts Input Output ReadFacts SpecRead ScalarFacts SpecConv SpecWrite WriteFacts WriteProps Strings StringFacts Copy CopyProps StdIo SpecStd CutProps StdProps
  Lines LineProps LineIo SpecStream StreamProps StringProps ReadInv ReadSession ReadProps ByteProps ReadPieces SpecCat StdBuf SpecBuf BufProps BufWrite SpecLineBuf LineBytes AdaptProps WholeProps StdCopy.
Import ListNotations.
Local Open Scope N_scope.
Local Opaque pipeline.

Lemma pieces_concat : forall rs, concat (pieces_of rs) = bytes_given rs.
Proof. induction rs as [|[bs| |] rs IH]; cbn; [reflexivity|f_equal; exact IH|exact IH|exact IH]. Qed.
Lemma first_end : forall n k b rs b', buf_reads b (repeat n k) = (rs, b') -> In (BOk []) rs ->
  exists j r1 b1, (j < k)%nat /\ buf_reads b (repeat n j ++ [n]) = (r1 ++ [BOk []], b1) /\ ~ In (BOk []) r1.
Proof.
  intros n. induction k as [|k IH]; intros b rs b' H I; cbn [repeat buf_reads] in H; [injection H as <- <-; destruct I|].
  destruct (buf_read b n) as [r b1] eqn:E1. destruct (buf_reads b1 (repeat n k)) as [rs' b2] eqn:E2. injection H as <- <-.
  assert (D : r = BOk [] \/ r <> BOk []) by (destruct r as [[|x l]| |]; [now left|right; discriminate|right; discriminate|right; discriminate]).
  destruct D as [->|D].
  - exists 0%nat, [], b1. split; [lia|]. split; [cbn; now rewrite E1|intros []].
  - destruct I as [I|I]; [congruence|]. destruct (IH _ _ _ E2 I) as (j & r1 & b3 & L & R & N). exists (S j), (r :: r1), b3. split; [lia|]. cbn [repeat app buf_reads]. rewrite E1, R. split; [reflexivity|]. intros [K|K]; auto.
Qed.
Lemma copy_runs : forall n j b o r1 b1 oks o1 c, buf_reads b (repeat n j ++ [n]) = (r1 ++ [BOk []], b1) -> ~ In (BOk []) r1 -> ~ In BErr r1 ->
  each_write lw_write_all o (pieces_of r1) = Some (oks, o1) -> Forall (fun r => r = None) oks ->
  forall fuel, (j < fuel)%nat -> buf_copy fuel n b o c = Some (CopyOk (c + length (bytes_given r1)), b1, o1).
Proof.
  intros n. induction j as [|j IH]; intros b o r1 b1 oks o1 c R NE NB W OK fuel L; (destruct fuel as [|f]; [lia|]); cbn [repeat app buf_reads buf_copy] in *.
  - destruct (buf_read b n) as [r b2]. assert (E : r1 = [] /\ r = BOk [] /\ b2 = b1).
    { destruct r1 as [|x r1]; [injection R as -> ->; auto|]. destruct r1; discriminate. }
    destruct E as (-> & -> & ->). cbn [pieces_of flat_map each_write bytes_given] in *. injection W as <- <-. cbn. now rewrite Nat.add_0_r.
  - destruct (buf_read b n) as [r b2] eqn:E1. destruct (buf_reads b2 (repeat n j ++ [n])) as [rs' b3] eqn:E2. destruct r1 as [|x r1]; [exfalso; injection R as -> E _; subst rs'|].
    + assert (Z : length (fst (buf_reads b2 (repeat n j ++ [n]))) = (j + 1)%nat).
      { clear. revert b2. induction j as [|j IH]; intro b2; cbn [repeat app buf_reads]; destruct (buf_read b2 n) as [x y]; [reflexivity|]. specialize (IH y). destruct (buf_reads y (repeat n j ++ [n])) as [p q]. cbn in *. lia. }
      rewrite E2 in Z. cbn in Z. lia.
    + injection R as -> E ->. subst rs'. assert (NE1 : ~ In (BOk []) r1) by (intro K; apply NE; now right). assert (NB1 : ~ In BErr r1) by (intro K; apply NB; now right). assert (LF1 : (j < f)%nat) by lia.
      destruct x as [bs| |].
      * cbn [pieces_of flat_map app each_write] in W. destruct (lw_write_all o bs) as [[r o2]|] eqn:EW; [|discriminate]. change (flat_map _ r1) with (pieces_of r1) in W.
        destruct (each_write lw_write_all o2 (pieces_of r1)) as [[oks2 o3]|] eqn:E3; [|discriminate]. injection W as <- <-. inversion OK as [|? ? O1 O2]; subst.
        rewrite given_cons, app_length, Nat.add_assoc. destruct bs as [|y bs]; [destruct NE; now left|].
        exact (IH _ _ _ _ _ _ _ E2 NE1 NB1 E3 O2 f LF1).
      * exact (IH _ _ _ _ _ _ _ E2 NE1 NB1 W OK f LF1).
      * destruct NB. now left.
Qed.
Lemma piece_short : forall nel lsps script g b ns xs n bs b', session nel lsps script g b ns xs -> (136 <= capacity b)%nat -> buf_read b n = (BOk bs, b') -> (length bs <= n)%nat.
Proof.
  intros nel lsps script g b ns xs n bs b' S C H. unfold buf_read in H. destruct (match unread b with [] => true | _ => false end && Nat.leb (capacity b) n) eqn:E.
  - apply andb_true_iff in E. destruct E as [E1 E2]. apply Nat.leb_le in E2. assert (U : unread b = []) by (destruct (unread b); [reflexivity|discriminate]). assert (L : (136 <= n)%nat) by lia.
    destruct (direct_spec _ _ _ _ _ _ _ _ _ _ S U L H) as (_ & _ & x & cs & _ & K & _). exact K.
  - destruct (fill_buf b) as [[l| |] b1]; try discriminate. injection H as <- _. rewrite firstn_length. lia.
Qed.
Lemma pieces_short : forall n k nel lsps script g b ns xs rs b', session nel lsps script g b ns xs -> (136 <= capacity b)%nat -> buf_reads b (repeat n k) = (rs, b') -> Forall (fun p => length p <= n)%nat (pieces_of rs).
Proof.
  intros n. induction k as [|k IH]; intros nel lsps script g b ns xs rs b' S C H; cbn [repeat buf_reads] in H; [injection H as <- _; constructor|].
  destruct (buf_read b n) as [r b1] eqn:E1. destruct (buf_reads b1 (repeat n k)) as [rs' b2] eqn:E2. injection H as <- <-.
  destruct (read_spec1 _ _ _ _ _ _ _ _ _ _ S C E1) as (C1 & _ & _ & ns1 & xs1 & S1 & _). rewrite <- C1 in C. specialize (IH _ _ _ _ _ _ _ _ _ S1 C E2).
  destruct r as [bs| |]; cbn [pieces_of flat_map app]; [|exact IH|exact IH]. constructor; [|exact IH]. rewrite C1 in C. exact (piece_short _ _ _ _ _ _ _ _ _ _ S C E1).
Qed.
Lemma within_fit : forall cap n ps, Forall (fun p => length p <= n)%nat ps -> lines_within cap n (concat ps) -> bytes_fit cap ps.
Proof.
  intros cap n ps F W a p b l -> (NI & u & E & U). apply Forall_app in F. destruct F as [_ F]. apply Forall_inv in F.
  rewrite concat_app, E, <- app_assoc in W. pose proof (W u l (concat (p :: b)) eq_refl U NI). lia.
Qed.
Theorem buf_copied : forall nel lsps script cap n lc (bom cr : bool) t, (136 <= cap)%nat -> (0 < n)%nat -> no_fail script -> scalar_stream script -> gives nel lsps script t -> lines_within lc n (encode_all t) ->
  exists k, forall fuel, (k <= fuel)%nat -> exists b o w, buf_copy fuel n (new_bufreader nel lsps script cap) (mkbw (new_writer cr false (below bom)) lc []) 0 = Some (CopyOk (str_len t), b, o) /\
  bw_finish o = Some (None, w) /\ emitted (inner w) = (if bom then [0xFEFF] else []) ++ as_sent cr t.
Proof.
  intros nel lsps script cap n lc bom cr t C N0 NF SS G LW. destruct (buffered_ends nel lsps script cap C) as [k K].
  destruct (buf_reads (new_bufreader nel lsps script cap) (repeat n k)) as [rs b0] eqn:R0.
  assert (I : In (BOk []) rs) by (apply (K (repeat n k) rs b0); [now rewrite repeat_length|apply Forall_forall; intros x HX; apply repeat_spec in HX; now subst x|exact R0]).
  destruct (first_end _ _ _ _ _ R0 I) as (j & r1 & b1 & LJ & R & NE).
  destruct (buffered_end _ _ _ _ _ _ _ _ C N0 R) as (ns & xs & j1 & rest & LS & RD & RE & EB).
  destruct (received_is_prefix _ _ _ _ _ _ _ _ NF G RD) as [_ ET]. specialize (ET RE). rewrite <- ET in EB.
  assert (NB : ~ In BErr r1) by (intro X; apply (buffered_no_error _ _ _ _ _ _ _ C NF R); apply in_or_app; now left).
  assert (R2 : exists b2, buf_reads (new_bufreader nel lsps script cap) (repeat n j) = (r1, b2)).
  { clear -R. revert R. generalize (new_bufreader nel lsps script cap). revert r1 b1. induction j as [|j IH]; intros r1 b1 b R; cbn [repeat app buf_reads] in *.
    - destruct (buf_read b n) as [r b2]. destruct r1 as [|x r1]; [now exists b|]. destruct r1; discriminate.
    - destruct (buf_read b n) as [r b2]. destruct (buf_reads b2 (repeat n j ++ [n])) as [rs' b3] eqn:E. destruct r1 as [|x r1].
      + exfalso. injection R as _ -> _. clear -E. destruct j; cbn [repeat app buf_reads] in E; destruct (buf_read b2 n) as [p q]; [discriminate|]. destruct (buf_reads q (repeat n j ++ [n])); discriminate.
      + injection R as -> -> ->. destruct (IH _ _ _ E) as [b4 E4]. rewrite E4. now exists b4. }
  destruct R2 as [b2 R2]. pose proof (pieces_short _ _ _ _ _ _ _ _ _ _ _ (session_new nel lsps script cap) C R2) as PS.
  assert (CP : concat (pieces_of r1) = encode_all t) by (rewrite pieces_concat; exact EB).
  assert (F : bytes_fit lc (pieces_of r1)) by (apply (within_fit _ n); [exact PS|now rewrite CP]).
  set (o0 := mkbw (new_writer cr false (below bom)) lc []).
  pose proof (each_total _ lw_total (pieces_of r1) o0) as T1. destruct (each_write lw_write_all o0 (pieces_of r1)) as [[oks o1]|] eqn:EW; [|now destruct T1].
  pose proof (finish_total o1) as T2. destruct (bw_finish o1) as [[r w]|] eqn:EF; [|now destruct T2].
  assert (OK : (string_ok t /\ line_terminated t) /\ preceded t /\ scalars t).
  { destruct G as (s0 & x0 & y0 & z0 & G1 & G2 & <-). split; [exact (session_is_text_buffers _ _ _ _ _ _ _ G1 G2)|]. split; [|exact (read_scalar_text _ _ _ _ _ _ _ SS G1)]. destruct (session_end _ _ _ _ _ _ _ G1 G2) as (-> & _). apply converted_preceded. }
  destruct OK as ([SK LT] & PR & SC).
  assert (FIN : Forall (fun r => r = None) (oks ++ [r]) /\ emitted (inner w) = (if bom then [0xFEFF] else []) ++ as_sent cr t).
  { destruct t as [|c t].
    - assert (PN : pieces_of r1 = []).
      { destruct (pieces_of r1) as [|p ps] eqn:EP; [reflexivity|exfalso]. cbn [concat encode_all flat_map] in CP. apply app_eq_nil in CP. destruct CP as [-> _].
        apply NE. clear -EP. induction r1 as [|[bs| |] r1 IH]; cbn [pieces_of flat_map app] in EP; [discriminate|injection EP as -> _; now left|right; now apply IH|right; now apply IH]. }
      rewrite PN in EW. cbn in EW. injection EW as <- <-. unfold o0, bw_finish, flush_buf in EF. cbn in EF. destruct bom; cbn in EF; injection EF as <- <-; (split; [cbn [app]; apply Forall_cons; [reflexivity|apply Forall_nil]|destruct cr; reflexivity]).
    - destruct (linewriter_bytes bom cr lc (pieces_of r1) (c :: t) oks o1 r w SC CP ltac:(discriminate) F EW EF) as [L1 L2].
      assert (ST : strict_stream (c :: t)) by (split; [now apply ok_accepted|exact LT]). split; [now apply L1|]. rewrite (L2 ST), (ok_pipeline _ SK PR). reflexivity. }
  destruct FIN as [FN EM]. apply Forall_app in FN. destruct FN as [F1 F2]. apply Forall_inv in F2. subst r. exists (S k). intros fuel LFU. exists b1, o1, w.
  split; [|split; [exact EF|exact EM]]. rewrite (copy_runs _ _ _ _ _ _ _ _ 0 R NE NB EW F1) by lia. rewrite EB, encode_all_length. reflexivity.
Qed.
(** Copying ends, whatever is read and whatever fails. *)
Lemma copy_ends : forall n k b o c rs b', buf_reads b (repeat n k) = (rs, b') -> In (BOk []) rs -> forall fuel, (k <= fuel)%nat -> buf_copy fuel n b o c <> None.
Proof.
  intros n. induction k as [|k IH]; intros b o c rs b' H I fuel L; cbn [repeat buf_reads] in H; [injection H as <- <-; destruct I|].
  destruct fuel as [|fuel]; [lia|]. destruct (buf_read b n) as [r b1] eqn:E1. destruct (buf_reads b1 (repeat n k)) as [rs' b2] eqn:E2. injection H as <- <-. cbn [buf_copy]. rewrite E1.
  destruct r as [[|x l]| |]; [discriminate| | |discriminate].
  - destruct I as [I|I]; [discriminate|]. pose proof (lw_total o (x :: l)) as T. destruct (lw_write_all o (x :: l)) as [[[e|] o']|]; [discriminate|apply (IH _ _ _ _ _ E2 I); lia|now destruct T].
  - destruct I as [I|I]; [discriminate|]. apply (IH _ _ _ _ _ E2 I). lia.
Qed.
Theorem buf_copy_total : forall nel lsps script cap n, (136 <= cap)%nat -> (0 < n)%nat -> exists k, forall o c fuel, (k <= fuel)%nat -> buf_copy fuel n (new_bufreader nel lsps script cap) o c <> None.
Proof.
  intros nel lsps script cap n C N0. destruct (buffered_ends nel lsps script cap C) as [k K]. exists k. intros o c fuel L.
  destruct (buf_reads (new_bufreader nel lsps script cap) (repeat n k)) as [rs b0] eqn:R0. refine (copy_ends n k _ o c rs b0 R0 _ fuel L).
  apply (K (repeat n k) rs b0); [now rewrite repeat_length|apply Forall_forall; intros x HX; apply repeat_spec in HX; now subst x|exact R0].
Qed.
(** What happened, for every outcome. *)
Lemma running_cons : forall r rs, r <> BOk [] -> r <> BErr -> running rs -> running (r :: rs).
Proof. intros r rs A B [C D]. split; intros [X|X]; auto. Qed.
Theorem buf_copy_any : forall fuel n b o c res b' o', buf_copy fuel n b o c = Some (res, b', o') ->
  exists k r1 last oks o1, buf_reads b (repeat n k) = (r1 ++ [last], b') /\ running r1 /\ each_write lw_write_all o (pieces_of r1) = Some (oks, o1) /\ Forall (fun r => r = None) oks /\
  match res with
  | CopyOk m => last = BOk [] /\ o' = o1 /\ m = (c + length (bytes_given r1))%nat
  | CopyRead => last = BErr /\ o' = o1
  | CopyWrite e => exists p, last = BOk p /\ p <> [] /\ lw_write_all o1 p = Some (Some e, o')
  end.
Proof.
  induction fuel as [|f IH]; intros n b o c res b' o' H; [discriminate|]. cbn [buf_copy] in H. destruct (buf_read b n) as [r b1] eqn:E1.
  assert (ONE : buf_reads b (repeat n 1) = ([] ++ [r], b1)) by (cbn [repeat buf_reads]; now rewrite E1).
  assert (RN : running []) by (split; intros []).
  destruct r as [[|x l]| |].
  - injection H as <- <- <-. exists 1%nat, [], (BOk []), [], o. split; [exact ONE|]. split; [exact RN|]. split; [reflexivity|]. split; [constructor|]. cbn. rewrite Nat.add_0_r. auto.
  - destruct (lw_write_all o (x :: l)) as [[[e|] o2]|] eqn:EW; [| |discriminate].
    + injection H as <- <- <-. exists 1%nat, [], (BOk (x :: l)), [], o. split; [exact ONE|]. split; [exact RN|]. split; [reflexivity|]. split; [constructor|]. exists (x :: l). split; [reflexivity|]. split; [discriminate|exact EW].
    + destruct (IH _ _ _ _ _ _ _ H) as (k & r1 & last & oks & o1 & R & RU & EA & F & RES). exists (S k), (BOk (x :: l) :: r1), last, (None :: oks), o1.
      split; [cbn [repeat buf_reads]; now rewrite E1, R|]. split; [apply running_cons; [discriminate|discriminate|exact RU]|].
      split; [cbn [pieces_of flat_map app each_write]; rewrite EW; unfold pieces_of in EA; now rewrite EA|]. split; [now constructor|].
      destruct res; [|exact RES|exact RES]. destruct RES as (-> & -> & ->). split; [reflexivity|]. split; [reflexivity|]. rewrite given_cons, app_length. lia.
  - destruct (IH _ _ _ _ _ _ _ H) as (k & r1 & last & oks & o1 & R & RU & EA & F & RES). exists (S k), (BInterrupted :: r1), last, oks, o1.
    split; [cbn [repeat buf_reads]; now rewrite E1, R|]. split; [apply running_cons; [discriminate|discriminate|exact RU]|]. split; [exact EA|]. split; [exact F|]. exact RES.
  - injection H as <- <- <-. exists 1%nat, [], BErr, [], o. split; [exact ONE|]. split; [exact RN|]. split; [reflexivity|]. split; [constructor|]. auto.
Qed.
