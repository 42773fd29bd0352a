(** Colours do not disturb the text. *)
From Coq Require Import NArith Arith List Bool Lia ZifyBool ZifyNat ZifyN.
From Verif Require Import Base Ucd UcdTables Norm Chars TextTables TextUtils UcdFacts NormFacts CharFacts DocTable SpecText TextFacts PipelineFacts IsoFacts KeepFacts ConcatFacts
  Strings StringProps SpecString JoinProps Utf8 Utf8Facts Output SpecEscape SpecWrite WriteFacts WriteProps WriteColour SeamProps
  Input ReadFacts ReadInv ReadSession SpecRead ReadChunk EscapeFacts EscapeRun ReadProps ReadPieces SpecCat SpecPush PushProps LossyProps FuzzProps SpecMore CanonProps SpecColour.
Import ListNotations.
Local Open Scope N_scope.
Arguments N.add : simpl never.
Arguments N.leb : simpl never.
Arguments N.ltb : simpl never.
Arguments N.eqb : simpl never.

(** * Conversion *)
Lemma iso_sep : forall a n h i b, is_assigned i = true -> i =? CGJ = false -> isolate_go n h (a ++ i :: b) = isolate_go n h a ++ i :: isolate_go false false b.
Proof.
  induction a as [|c a IH]; intros n h i b A E.
  - cbn [app isolate_go]. rewrite A, E. destruct n; reflexivity.
  - cbn [app isolate_go]. destruct (_ || _); cbn [app]; now rewrite IH.
Qed.
Definition ascii_ok (c : N) : bool := (c <=? 127) && is_assigned c && negb (c =? CGJ).
Lemma iso_ascii : forall a b, Forall (fun c => ascii_ok c = true) a -> isolate_go false false (a ++ b) = a ++ isolate_go false false b.
Proof.
  induction a as [|c a IH]; intros b H; [reflexivity|]. inversion H as [|? ? H1 H2]; subst. unfold ascii_ok in H1.
  change ((c :: a) ++ b) with ([] ++ c :: (a ++ b)). rewrite iso_sep by lia. cbn [isolate_go app]. now rewrite IH.
Qed.
Lemma cjk_ascii : forall a b, Forall (fun c => c <= 127) a -> cjk_compat_variants (a ++ b) = a ++ cjk_compat_variants b.
Proof.
  intros a b H. rewrite cjk_app. f_equal. induction H as [|c a H F IH]; [reflexivity|]. unfold cjk_compat_variants in *. cbn [flat_map]. rewrite IH.
  unfold cjk1. assert (c <=? 127 = true) as -> by lia. reflexivity.
Qed.
Lemma ss_ascii : forall a b, Forall (fun c => c <= 127) a -> stream_safe (a ++ b) = a ++ stream_safe b.
Proof.
  unfold stream_safe. intros a b H. induction H as [|c a H F IH]; [reflexivity|]. cbn [app stream_safe_go].
  destruct (ascii_facts c H) as (_ & CL & CN & _). rewrite CL, !CN. cbn [Nat.add]. unfold MAX_NONSTARTERS. cbn [Nat.ltb Nat.leb]. now rewrite IH.
Qed.
Lemma nfc_ascii : forall a, Forall (fun c => c <= 127) a -> nfc a = a.
Proof.
  intros a H. apply nfc_yes; [|eapply Forall_impl; [|exact H]; intros c K; exact (proj2 (proj2 (proj2 (ascii_facts c K))))].
  induction H as [|c a H F IH]; [exact I|]. apply ordered_starter_cons; [now apply ascii_facts|exact IH].
Qed.
Lemma hstart_ok : forall s, hstart s <-> starts_ok s.
Proof.
  intros [|c s]; unfold hstart; cbn; split; intro H; [intros ? ? E; discriminate|reflexivity|intros ? ? E; injection E as <- <-; exact H|exact (H c s eq_refl)].
Qed.
Lemma nfc_ascii_app : forall a b, Forall (fun c => c <= 127) a -> starts_ok b -> nfc (a ++ b) = a ++ nfc b.
Proof.
  intros a [|c b] H HS; [rewrite nfc_nil, !app_nil_r; now apply nfc_ascii|]. pose proof (HS c b eq_refl) as HC.
  rewrite nfc_app_at; [now rewrite (nfc_ascii a)|now apply start_cdh_ccc|]. intros y HY. rewrite (nfc_ascii a) in HY by exact H. apply last_opt_some in HY. destruct HY as [t ->].
  apply Forall_app in H. destruct H as [_ H]. inversion H; subst. apply start_cdh_second; [exact HC|]. apply start_joins; [exact HC|].
  intros [[K _]|[K _]]; lia.
Qed.
Lemma conv_ascii : forall a b, Forall (fun c => c <= 127) a -> starts_ok b -> conv (a ++ b) = a ++ conv b.
Proof.
  intros a b H HS. unfold conv. rewrite cjk_ascii, ss_ascii by exact H. apply nfc_ascii_app; [exact H|]. apply hstart_ok, ss_start, cjk_start, hstart_ok, HS.
Qed.
Lemma iso_start : forall s, hstart s -> hstart (isolate_unassigned s).
Proof. intros [|c s] H; [exact H|]. unfold isolate_unassigned. cbn [isolate_go]. destruct (_ || _); [exact start_CGJ|exact H]. Qed.
Lemma range_ascii : ranges_all ascii_ok [(0x20, 0x3F); (0x5B, 0x5B); (0x6D, 0x6D)] = true.
Proof. vm_compute. reflexivity. Qed.
Lemma ascii_part : forall c, parameter c \/ c = 0x5B \/ c = 0x6D -> ascii_ok c = true.
Proof. intros c H. apply (ranges_all_spec _ _ _ range_ascii). unfold in_ranges, in_range, parameter in *. cbn [existsb fst snd]. lia. Qed.
Definition body (ps : list N) : list N := 0x5B :: ps ++ [0x6D].
Lemma body_ok : forall ps, Forall parameter ps -> Forall (fun c => ascii_ok c = true) (body ps).
Proof.
  intros ps H. unfold body. constructor; [apply ascii_part; auto|]. apply Forall_app. split; [|constructor; [apply ascii_part; auto|constructor]].
  eapply Forall_impl; [|exact H]. intros c K. apply ascii_part. auto.
Qed.
Lemma sgr_body : forall ps, sgr ps = ESC :: body ps. Proof. reflexivity. Qed.
(** The "m" that ends a sequence, before any text. *)
Transparent ccc compose.
Definition highy (y : list N) : Prop := exists c u, y = c :: u /\ 0x7F < c.
Lemma comp_high : tall (fun _ l => forallb (fun x => 0x7F <? snd x) l) trie_comp = true. Proof. vm_compute. reflexivity. Qed.
Lemma compose_high : forall a b r, compose a b = Some r -> 0x7F < r.
Proof.
  intros a b r H. unfold compose in H. destruct (compose_hangul a b) as [h|] eqn:E.
  - injection H as <-. unfold compose_hangul in E. unfold S_BASE in E. destruct (_ && _); [injection E as <-; unfold N_COUNT, T_COUNT, L_BASE, V_BASE; lia|].
    destruct (in_range a _ _) eqn:EA; cbn [andb] in E; [|discriminate]. destruct (_ && _); [injection E as <-; unfold in_range in EA; lia|discriminate].
  - unfold compose_table in H. destruct (nfind a trie_comp) as [l|] eqn:EL; [|discriminate]. pose proof (tall_spec _ _ _ _ _ comp_high EL) as T. cbn in T. clear - H T.
    induction l as [|[x y] l IH]; cbn in *; [discriminate|]. apply andb_prop in T. destruct T as [T1 T2]. destruct (x =? b); [injection H as <-; cbn in T1; lia|auto].
Qed.
Definition m_pairs : list (N * N) := match nfind 0x6D trie_comp with Some l => l | None => [] end.
Lemma m_marks : forall c r, compose 0x6D c = Some r -> ccc c <> 0.
Proof.
  intros c r H. unfold compose in H. change (compose_hangul 0x6D c) with (@None N) in H. unfold compose_table in H. fold m_pairs in H.
  assert (T : forallb (fun x => negb (ccc (fst x) =? 0)) m_pairs = true) by (vm_compute; reflexivity).
  replace (match nfind 0x6D trie_comp with Some l => assoc c l | None => None end) with (assoc c m_pairs) in H by (unfold m_pairs; now destruct (nfind 0x6D trie_comp)).
  revert T H. generalize m_pairs. clear. induction l as [|[x y] l IH]; intros T H; [discriminate|]. cbn [forallb fst assoc] in *. apply andb_prop in T. destruct T as [T1 T2].
  destruct (x =? c) eqn:E; [apply N.eqb_eq in E; subst x; lia|auto].
Qed.
Global Opaque ccc compose.
Lemma rc_high : forall s k buf l, 0x7F < k -> highy (rc k buf l s).
Proof.
  induction s as [|ch s IH]; intros k buf l H; cbn [rc]; [now exists k, buf|].
  destruct l as [lc|]; [destruct (ccc ch <=? lc); [destruct (ccc ch =? 0); [now eexists k, _|now apply IH]|]|]; destruct (compose k ch) as [r|] eqn:E;
    try (apply IH; exact (compose_high _ _ _ E)); try (now apply IH). destruct (ccc ch =? 0); [now eexists k, _|now apply IH].
Qed.
Lemma rc_m : forall s buf l, (l = None -> buf = []) -> rc 0x6D buf l s = 0x6D :: buf ++ recomp s \/ highy (rc 0x6D buf l s).
Proof.
  induction s as [|ch s IH]; intros buf l HL; [left; cbn [rc recomp]; now rewrite app_nil_r|]. cbn [rc recomp].
  destruct l as [lc|].
  - destruct (ccc ch =? 0) eqn:E0.
    + apply N.eqb_eq in E0. rewrite E0. assert (0 <=? lc = true) as -> by lia. now left.
    + assert (G : rc 0x6D (buf ++ [ch]) (Some (ccc ch)) s = 0x6D :: buf ++ ch :: recomp s \/ highy (rc 0x6D (buf ++ [ch]) (Some (ccc ch)) s)).
      { destruct (IH (buf ++ [ch]) (Some (ccc ch)) ltac:(discriminate)) as [K|K]; [left; rewrite K, <- app_assoc; reflexivity|now right]. }
      destruct (ccc ch <=? lc); [exact G|]. destruct (compose 0x6D ch) as [r|] eqn:E; [right; apply rc_high; exact (compose_high _ _ _ E)|exact G].
  - rewrite (HL eq_refl) in *. destruct (compose 0x6D ch) as [r|] eqn:E; [right; apply rc_high; exact (compose_high _ _ _ E)|]. cbn [app].
    destruct (ccc ch =? 0) eqn:E0; [now left|]. destruct (IH [ch] (Some (ccc ch)) ltac:(discriminate)) as [K|K]; [left; exact K|now right].
Qed.
Lemma nfc_m : forall z, nfc (0x6D :: z) = 0x6D :: nfc z \/ highy (nfc (0x6D :: z)).
Proof.
  intro z. destruct (NormFacts.ascii_facts 0x6D ltac:(lia)) as (C & _). unfold nfc, nfd. cbn [flat_map]. rewrite (cd_ascii 0x6D) by lia. cbn [app]. rewrite order_cons, ins_starter by exact C.
  cbn [recomp]. rewrite C. exact (rc_m _ [] None (fun _ => eq_refl)).
Qed.
Lemma pipe_m : forall t, pipeline (0x6D :: t) = 0x6D :: pipeline t \/ highy (pipeline (0x6D :: t)).
Proof.
  intro t. rewrite !pipeline_conv. unfold isolate_unassigned. change (0x6D :: t) with ([] ++ 0x6D :: t). rewrite iso_sep by (vm_compute; reflexivity). cbn [isolate_go app].
  unfold conv. change (0x6D :: isolate_go false false t) with ([0x6D] ++ isolate_go false false t). rewrite cjk_ascii, ss_ascii by (repeat constructor; lia). apply nfc_m.
Qed.
Lemma merges_false : forall t, merges t = false -> pipeline (0x6D :: t) = 0x6D :: pipeline t.
Proof. intros t H. unfold merges in H. apply list_eqb_eq. now destruct (list_eqb _ _). Qed.
Lemma merges_true : forall t, merges t = true -> highy (pipeline (0x6D :: t)).
Proof.
  intros t H. destruct (pipe_m t) as [E|E]; [|exact E]. exfalso. unfold merges in H. rewrite E in H. rewrite (proj2 (list_eqb_eq _ _) eq_refl) in H. discriminate.
Qed.
Lemma merges_iff : forall t, merges t = true <-> pipeline (0x6D :: t) <> 0x6D :: pipeline t.
Proof.
  intro t. unfold merges. split.
  - intros H E. rewrite E, (proj2 (list_eqb_eq _ _) eq_refl) in H. discriminate.
  - intro H. destruct (list_eqb _ _) eqn:E; [apply list_eqb_eq in E; contradiction|reflexivity].
Qed.
Lemma merges_LF : forall a b, merges (a ++ LF :: b) = merges a.
Proof.
  intros a b. apply eq_true_iff_eq. rewrite !merges_iff. change (0x6D :: a ++ LF :: b) with ((0x6D :: a) ++ LF :: b). rewrite !pipeline_LF.
  split; intros H E; apply H; [rewrite E; reflexivity|]. change (0x6D :: pipeline a ++ LF :: pipeline b) with ((0x6D :: pipeline a) ++ LF :: pipeline b) in E. now apply app_inv_tail in E.
Qed.
Lemma pipe_sgr : forall a ps t, Forall parameter ps -> pipeline (a ++ sgr ps ++ t) = pipeline a ++ ESC :: 0x5B :: ps ++ pipeline (0x6D :: t).
Proof.
  intros a ps t HP. rewrite !pipeline_conv. unfold sgr. cbn [app]. rewrite <- app_assoc. cbn [app]. unfold isolate_unassigned. rewrite iso_sep by (vm_compute; reflexivity). 
  assert (B : Forall (fun c => ascii_ok c = true) (0x5B :: ps)) by (constructor; [apply ascii_part; auto|eapply Forall_impl; [|exact HP]; intros c K; apply ascii_part; auto]).
  change (0x5B :: ps ++ 0x6D :: t) with ((0x5B :: ps) ++ 0x6D :: t). rewrite iso_ascii by exact B. rewrite conv_split by exact boring_ESC. do 2 f_equal. apply (conv_ascii (0x5B :: ps)).
  - eapply Forall_impl; [|exact B]. intros c K. unfold ascii_ok in K. lia.
  - apply hstart_ok. apply iso_start. reflexivity.
Qed.
Lemma starts_merges : forall t, starts_ok t -> merges t = false.
Proof.
  intros t HS. destruct (merges t) eqn:E; [|reflexivity]. exfalso. apply merges_iff in E. apply E. rewrite !pipeline_conv. unfold isolate_unassigned. change (0x6D :: t) with ([] ++ 0x6D :: t).
  rewrite iso_sep by (vm_compute; reflexivity). cbn [isolate_go app]. apply (conv_ascii [0x6D]); [repeat constructor; lia|]. apply hstart_ok. apply iso_start, hstart_ok, HS.
Qed.
Lemma join_cons : forall t x l, join t (x :: l) = t ++ sgr (fst x) ++ join (snd x) l.
Proof. intros. unfold join. cbn [flat_map]. now rewrite <- app_assoc. Qed.
Lemma join_nil : forall t, join t [] = t. Proof. intro. apply app_nil_r. Qed.
Definition parts_ok (l : list (list N * list N)) : Prop := Forall (fun x => Forall parameter (fst x)) l.
Lemma start_ESC : is_basic_text_start ESC = true. Proof. vm_compute. reflexivity. Qed.
Definition shown_parts (l : list (list N * list N)) := map (fun x => (fst x, pipeline (snd x))) l.
(** Sequences each with what follows its parameters. *)
Definition rjoin (t : list N) (l : list (list N * list N)) : list N := t ++ flat_map (fun x => ESC :: 0x5B :: fst x ++ snd x) l.
Definition raw_parts (l : list (list N * list N)) := map (fun x => (fst x, pipeline (0x6D :: snd x))) l.
Lemma rjoin_cons : forall t x l, rjoin t (x :: l) = t ++ ESC :: 0x5B :: fst x ++ rjoin (snd x) l.
Proof. intros. unfold rjoin. cbn [flat_map app]. now rewrite <- app_assoc. Qed.
Lemma rjoin_nil : forall t, rjoin t [] = t. Proof. intro. apply app_nil_r. Qed.
Lemma pipeline_rjoin : forall l t, parts_ok l -> pipeline (join t l) = rjoin (pipeline t) (raw_parts l).
Proof.
  induction l as [|[ps x] l IH]; intros t H; [unfold raw_parts; cbn [map]; now rewrite join_nil, rjoin_nil|]. inversion H as [|? ? H1 H2]; subst. cbn [fst snd] in *.
  unfold raw_parts. cbn [map fst snd]. rewrite join_cons, rjoin_cons. cbn [fst snd]. rewrite pipe_sgr by exact H1. change (0x6D :: join x l) with (join (0x6D :: x) l). now rewrite IH.
Qed.
Definition apart_parts (l : list (list N * list N)) : bool := negb (existsb (fun x => merges (snd x)) l).
Lemma rjoin_apart : forall l t, apart_parts l = true -> rjoin t (raw_parts l) = join t (shown_parts l).
Proof.
  induction l as [|[ps x] l IH]; intros t H; [unfold raw_parts, shown_parts; cbn [map]; now rewrite join_nil, rjoin_nil|].
  unfold apart_parts in H. cbn [existsb snd] in H. destruct (merges x) eqn:E; [discriminate|]. cbn [orb] in H.
  unfold raw_parts, shown_parts. cbn [map fst snd]. rewrite rjoin_cons, join_cons. cbn [fst snd]. rewrite (merges_false x E). unfold sgr. cbn [app]. rewrite <- app_assoc. cbn [app].
  fold (raw_parts l). fold (shown_parts l). do 4 f_equal. change (rjoin (0x6D :: pipeline x) (raw_parts l)) with (0x6D :: rjoin (pipeline x) (raw_parts l)). f_equal. now apply IH.
Qed.
Lemma pipeline_join : forall l t, parts_ok l -> apart_parts l = true -> pipeline (join t l) = join (pipeline t) (shown_parts l).
Proof. intros l t H A. rewrite pipeline_rjoin by exact H. now apply rjoin_apart. Qed.
Lemma source_pipeline : forall p, painted_ok p -> apart p = true -> pipeline (source p) = shown p.
Proof. intros p [_ H] A. exact (pipeline_join _ _ H A). Qed.

(** * The state machine *)
Local Opaque pipeline.
Lemma sm_app : forall a b w, sm_chars w (a ++ b) = match sm_chars w a with (None, w') => sm_chars w' b | r => r end.
Proof.
  induction a as [|c a IH]; intros b w; [reflexivity|]. cbn [app sm_chars]. destruct (sm_char w c) as [[e|] w']; [reflexivity|]. apply IH.
Qed.
Definition built (w : writer) (cs : list N) (q : list N) : writer :=
  mkwriter (buffer w ++ cs) (crlf w) (expect w) (ansi w) (after cs (wst w)) q (inner w).
Lemma sm_text : forall cs w g, wst w = WGround g -> ~ In SUB cs -> ~ In ESC cs -> sm_chars w cs = (None, built w cs (escseq w)).
Proof.
  induction cs as [|c cs IH]; intros w g HW HS HE.
  - cbn. unfold built. rewrite app_nil_r. now destruct w.
  - cbn [sm_chars]. unfold sm_char. rewrite HW.
    destruct (c =? ESC) eqn:E3; [exfalso; apply HE; left; lia|]. cbn [andb].
    destruct (c =? LF) eqn:E1; [|destruct (c =? SUB) eqn:E2; [exfalso; apply HS; left; lia|]];
      (erewrite IH; [|reflexivity|intro K; apply HS; now right|intro K; apply HE; now right]);
      unfold built, set_buf, set_wst; cbn [buffer crlf expect ansi wst escseq inner]; rewrite <- app_assoc; cbn [app]; do 2 f_equal.
    + apply N.eqb_eq in E1. now subst c.
    + apply N.eqb_eq in E1. subst c. change (LF :: cs) with ([LF] ++ cs). now rewrite after_app.
    + change (c :: cs) with ([c] ++ cs). rewrite after_app. f_equal. cbn. unfold text_ground. cbn. now rewrite E1.
Qed.
Lemma sm_bad : forall cs w g, wst w = WGround g -> In SUB cs -> ~ In ESC cs -> exists e b, sm_chars w cs = (Some e, set_buf (prepare_failure w) b).
Proof.
  induction cs as [|c cs IH]; intros w g HW HS HE; [destruct HS|]. cbn [sm_chars]. unfold sm_char. rewrite HW.
  destruct (c =? ESC) eqn:E3; [exfalso; apply HE; left; lia|]. cbn [andb].
  destruct (c =? LF) eqn:E1.
  - edestruct (IH (set_buf (set_wst w (WGround Newline)) (buffer w ++ [LF]))) as (e & b & E); [reflexivity| |intro K; apply HE; now right|exists e, b; exact E].
    destruct HS as [HS|HS]; [unfold LF, SUB in *; lia|exact HS].
  - destruct (c =? SUB) eqn:E2; [do 2 eexists; destruct w; reflexivity|].
    edestruct (IH (set_buf (set_wst w (WGround (ground_of c))) (buffer w ++ [c]))) as (e & b & E); [reflexivity| |intro K; apply HE; now right|exists e, b; exact E].
    destruct HS as [HS|HS]; [lia|exact HS].
Qed.
Lemma sm_params : forall ps w, wst w = WCsi -> Forall parameter ps ->
  sm_chars w ps = (None, mkwriter (buffer w) (crlf w) (expect w) (ansi w) WCsi (escseq w ++ ps) (inner w)).
Proof.
  induction ps as [|c ps IH]; intros w HW H; [cbn; rewrite app_nil_r; destruct w; cbn in HW; now subst|]. inversion H as [|? ? H1 H2]; subst.
  cbn [sm_chars]. unfold sm_char. rewrite HW. assert (in_range c 0x20 0x3F = true) as -> by (unfold in_range, parameter in *; lia).
  rewrite IH by (auto; reflexivity). cbn [buffer crlf expect ansi escseq inner]. now rewrite <- app_assoc.
Qed.
Lemma sm_sgr : forall ps w g, ansi w = true -> wst w = WGround g -> Forall parameter ps -> sm_chars w (sgr ps) = (None, built w (sgr ps) (sgr ps)).
Proof.
  intros ps w g HA HW H. unfold sgr. cbn [sm_chars]. unfold sm_char at 1. rewrite HW, HA, N.eqb_refl. cbn [andb]. unfold sm_char at 1. cbn [wst]. rewrite N.eqb_refl.
  rewrite sm_app. rewrite sm_params by (auto; reflexivity). cbn [sm_chars]. unfold sm_char. cbn [wst]. change (in_range 109 32 63) with false. rewrite N.eqb_refl.
  unfold built. cbn [buffer crlf expect ansi wst escseq inner app]. rewrite HA. do 2 f_equal. unfold after, text_ground.
  change (27 :: 91 :: ps ++ [109]) with ((27 :: 91 :: ps) ++ [109]). rewrite last_opt_snoc. reflexivity.
Qed.
Lemma built_app : forall w a q b q', built (built w a q) b q' = built w (a ++ b) q'.
Proof. intros. unfold built. cbn [buffer crlf expect ansi wst escseq inner]. now rewrite after_app, <- app_assoc. Qed.
Lemma built_ground : forall w a q g, wst w = WGround g -> exists g', wst (built w a q) = WGround g'.
Proof. intros w a q g H. unfold built. cbn [wst]. apply after_ground. eauto. Qed.
Definition texts_of (t : list N) (l : list (list N * list N)) : list (list N) := t :: map snd l.
Lemma sm_join : forall l t w g, ansi w = true -> wst w = WGround g -> Forall (fun x => Forall parameter (fst x)) l ->
  Forall (fun t => ~ In SUB t /\ ~ In ESC t) (texts_of t l) -> exists q, sm_chars w (join t l) = (None, built w (join t l) q).
Proof.
  induction l as [|[ps x] l IH]; intros t w g HA HW HP HT; inversion HT as [|? ? [T1 T2] T3]; subst.
  - rewrite join_nil. exists (escseq w). now apply (sm_text _ _ g).
  - inversion HP as [|? ? P1 P2]; subst. rewrite join_cons. cbn [fst snd] in *. rewrite sm_app, (sm_text _ _ g) by assumption. rewrite sm_app.
    destruct (built_ground w t (escseq w) g HW) as [g1 G1]. rewrite (sm_sgr _ _ g1) by assumption. rewrite built_app.
    destruct (built_ground w (t ++ sgr ps) (sgr ps) g HW) as [g2 G2]. destruct (IH x (built w (t ++ sgr ps) (sgr ps)) g2 HA G2 P2 T3) as [q ->].
    exists q. now rewrite built_app, <- app_assoc.
Qed.
(** equal but for the kept escape sequence and the buffer *)
Definition gone (w w' : writer) : Prop := crlf w' = crlf w /\ ansi w' = ansi w /\ expect w' = expect w /\ wst w' = WGround Newline /\ inner w' = sink_abandon (inner w).
Lemma sm_high : forall w c u, wst w = WCsi -> 0x7F < c -> exists e w', sm_chars w (c :: u) = (Some e, w') /\ gone w w'.
Proof.
  intros w c u HW HC. cbn [sm_chars]. unfold sm_char. rewrite HW. assert (in_range c 0x20 0x3F = false) as -> by (unfold in_range; lia). assert (c =? 0x6D = false) as -> by lia.
  do 2 eexists. split; [reflexivity|]. destruct w. repeat split.
Qed.
Lemma sm_csi : forall ps w g, ansi w = true -> wst w = WGround g -> Forall parameter ps ->
  sm_chars w (ESC :: 0x5B :: ps) = (None, mkwriter (buffer w) (crlf w) (expect w) (ansi w) WCsi (ESC :: 0x5B :: ps) (inner w)).
Proof.
  intros ps w g HA HW H. cbn [sm_chars]. unfold sm_char at 1. rewrite HW, HA, N.eqb_refl. cbn [andb]. unfold sm_char at 1. cbn [wst]. change (91 =? 0x5B) with true. cbn [buffer crlf expect ansi wst escseq inner app].
  rewrite sm_params by (auto; reflexivity). cbn [buffer crlf expect ansi wst escseq inner app]. reflexivity.
Qed.
(** what follows the parameters: "m" and a text, or something else *)
Definition followed (y : list N) : Prop := (exists z, y = 0x6D :: z /\ ~ In ESC z) \/ highy y.
Lemma sm_rjoin_bad : forall l t w g, ansi w = true -> wst w = WGround g -> Forall (fun x => Forall parameter (fst x) /\ followed (snd x)) l ->
  ~ In ESC t -> In SUB (t ++ concat (map snd l)) \/ Exists (fun x => highy (snd x)) l -> forall h, exists e w', sm_chars w (rjoin t l ++ h) = (Some e, w') /\ gone w w'.
Proof.
  induction l as [|[ps y] l IH]; intros t w g HA HW HP HT HS h; (destruct (in_dec N.eq_dec SUB t) as [J|J];
    [destruct (sm_bad t w g HW J HT) as (e & b & E); exists e; eexists; split; [unfold rjoin; rewrite <- app_assoc, sm_app, E; reflexivity|repeat split]|]).
  - cbn in HS. rewrite app_nil_r in HS. destruct HS as [HS|HS]; [contradiction|inversion HS].
  - inversion HP as [|? ? [P1 P2] P3]; subst. rewrite rjoin_cons. cbn [fst snd] in *. rewrite <- app_assoc, sm_app, (sm_text _ _ g) by assumption.
    destruct (built_ground w t (escseq w) g HW) as [g1 G1].
    replace ((ESC :: 0x5B :: ps ++ rjoin y l) ++ h) with ((ESC :: 0x5B :: ps) ++ rjoin y l ++ h) by (cbn [app]; now rewrite <- app_assoc). rewrite sm_app, (sm_csi ps _ g1) by assumption.
    destruct P2 as [(z & -> & NZ)|(c & u & -> & HC)].
    2:{ unfold rjoin. cbn [app]. match goal with |- exists e w', sm_chars ?v _ = _ /\ _ => destruct (sm_high v c ((u ++ flat_map (fun x => ESC :: 0x5B :: fst x ++ snd x) l) ++ h) eq_refl HC) as (e & w' & E & K) end.
        exists e, w'. split; [exact E|exact K]. }
    assert (HS' : In SUB (z ++ concat (map snd l)) \/ Exists (fun x => highy (snd x)) l).
    { destruct HS as [HS|HS]; [left|].
      - cbn [map concat snd] in HS. apply in_app_or in HS. destruct HS as [HS|[HS|HS]]; [contradiction|discriminate HS|exact HS].
      - inversion HS as [? ? (c & u & E & K)|? ? K]; subst; [exfalso; cbn [snd] in E; injection E as <- _; lia|now right]. }
    pose proof (sm_sgr ps (built w t (escseq w)) g1 HA G1 P1) as SG. unfold sgr in SG. change (0x1B :: 0x5B :: ps ++ [0x6D]) with ((ESC :: 0x5B :: ps) ++ [0x6D]) in SG. rewrite sm_app, (sm_csi ps _ g1) in SG by assumption.
    change (rjoin (0x6D :: z) l ++ h) with ([0x6D] ++ rjoin z l ++ h). rewrite sm_app, SG, built_app.
    destruct (built_ground w (t ++ sgr ps) (sgr ps) g HW) as [g2 G2]. destruct (IH z (built w (t ++ sgr ps) (sgr ps)) g2 HA G2 P3 NZ HS' h) as (e & w' & E & K). exists e, w'. split; [exact E|exact K].
Qed.

(** * One write *)
Lemma cat_app : forall a b, categorize (a ++ b) = categorize a ++ categorize b. Proof. intros. apply map_app. Qed.
Lemma range_clean : ranges_all clean [(0x20, 0x3F); (0x5B, 0x5B); (0x6D, 0x6D)] = true. Proof. vm_compute. reflexivity. Qed.
Lemma body_clean : forall ps, Forall parameter ps -> all_clean (body ps).
Proof.
  intros ps H. assert (K : forall c, parameter c \/ c = 0x5B \/ c = 0x6D -> clean c = true).
  { intros c HC. apply (ranges_all_spec _ _ _ range_clean). unfold in_ranges, in_range, parameter in *. cbn [existsb fst snd]. lia. }
  unfold body. constructor; [auto|]. apply Forall_app. split; [|constructor; auto]. eapply Forall_impl; [|exact H]. auto.
Qed.
Lemma cat_sgr : forall ps, Forall parameter ps -> categorize (sgr ps) = sgr ps.
Proof. intros ps H. rewrite sgr_body. unfold categorize. cbn [map]. f_equal. exact (clean_categorize _ (body_clean _ H)). Qed.
Definition cat_parts (l : list (list N * list N)) := map (fun x => (fst x, categorize (snd x))) l.
Lemma cat_join : forall l t, Forall (fun x => Forall parameter (fst x)) l -> categorize (join t l) = join (categorize t) (cat_parts l).
Proof.
  induction l as [|[ps x] l IH]; intros t H; [unfold cat_parts; cbn [map]; now rewrite !join_nil|]. inversion H as [|? ? H1 H2]; subst. cbn [fst snd] in *.
  unfold cat_parts. cbn [map fst snd]. rewrite !join_cons. cbn [fst snd]. rewrite !cat_app, cat_sgr by exact H1. now rewrite IH.
Qed.
Lemma cat_parts_clean : forall l, all_clean (concat (map snd l)) -> cat_parts l = l.
Proof.
  induction l as [|[ps x] l IH]; intro H; [reflexivity|]. cbn [map concat snd] in H. apply Forall_app in H. destruct H as [H1 H2].
  unfold cat_parts in *. cbn [map fst snd]. now rewrite IH, clean_categorize.
Qed.
Lemma cat_source : forall p, painted_ok p -> all_clean (concat (pieces p)) -> categorize (source p) = source p.
Proof.
  intros p [_ HR] HC. unfold source. rewrite cat_join by exact HR. unfold pieces in HC. cbn [concat] in HC. apply Forall_app in HC. destruct HC as [C1 C2].
  now rewrite clean_categorize, cat_parts_clean.
Qed.
Lemma converted_clean_pipeline : forall s, categorize s = s -> converted s = pipeline s.
Proof.
  intros s CAT. unfold converted. rewrite CAT. destruct (is_nfc_stream_safe_quick s) eqn:E; cbn [andb]; try reflexivity.
  destruct (forallb is_public_assigned s) eqn:F; [|reflexivity]. symmetry. now apply pipeline_quick.
Qed.
Lemma converted_ok : forall p, painted_ok p -> all_clean (concat (pieces p)) -> apart p = true -> converted (source p) = shown p.
Proof. intros p HP HC HA. rewrite converted_clean_pipeline by now apply cat_source. now apply source_pipeline. Qed.
Lemma cat_esc : forall t, ~ In ESC t -> ~ In ESC (categorize t).
Proof.
  intros t H K. apply in_map_iff in K. destruct K as (c & E & K). unfold categorize1 in E. destruct (check_basic_text_char c); [discriminate E|congruence].
Qed.
Lemma pipe_no_esc : forall t, ~ In ESC t -> ~ In ESC (pipeline t).
Proof. intros t H K. apply H. now apply (pipeline_in ESC t kept_ESC). Qed.
Lemma m_followed : forall t, ~ In ESC t -> followed (pipeline (0x6D :: t)).
Proof.
  intros t H. destruct (pipe_m t) as [->|K]; [left; eexists; split; [reflexivity|now apply pipe_no_esc]|now right].
Qed.
Lemma raw_followed : forall l, parts_ok l -> Forall (fun t => ~ In ESC t) (map snd l) -> Forall (fun x => Forall parameter (fst x) /\ followed (snd x)) (raw_parts l).
Proof.
  intros l H K. unfold raw_parts. apply Forall_map. induction H as [|[ps x] l H F IH]; [constructor|]. inversion K; subst. constructor; [|now apply IH]. split; [exact H|now apply m_followed].
Qed.
Definition as_is (l : list (list N * list N)) := map (fun x => (fst x, 0x6D :: snd x)) l.
Lemma join_as_is : forall l t, join t l = rjoin t (as_is l).
Proof.
  induction l as [|[ps x] l IH]; intro t; [unfold as_is; cbn [map]; now rewrite join_nil, rjoin_nil|]. unfold as_is. cbn [map fst snd]. rewrite join_cons, rjoin_cons. cbn [fst snd]. fold (as_is l).
  unfold sgr. cbn [app]. rewrite <- app_assoc. cbn [app]. rewrite IH. reflexivity.
Qed.
Lemma as_is_followed : forall l, parts_ok l -> Forall (fun t => ~ In ESC t) (map snd l) -> Forall (fun x => Forall parameter (fst x) /\ followed (snd x)) (as_is l).
Proof.
  intros l H K. unfold as_is. apply Forall_map. induction H as [|[ps x] l H F IH]; [constructor|]. inversion K; subst. constructor; [|now apply IH]. split; [exact H|left; now exists x].
Qed.
Lemma merge_exists : forall l, apart_parts l = false -> Exists (fun x => highy (snd x)) (raw_parts l).
Proof.
  intros l H. unfold apart_parts in H. apply negb_false_iff, existsb_exists in H. destruct H as ([ps x] & H1 & H2). cbn [snd] in H2. apply Exists_exists. exists (ps, pipeline (0x6D :: x)).
  split; [unfold raw_parts; apply in_map_iff; now exists (ps, x)|now apply merges_true].
Qed.
Lemma cat_painted : forall p, painted_ok p -> painted_ok (mkpainted (categorize (lead p)) (cat_parts (rest p))) /\ categorize (source p) = source (mkpainted (categorize (lead p)) (cat_parts (rest p))) /\
  pieces (mkpainted (categorize (lead p)) (cat_parts (rest p))) = map categorize (pieces p).
Proof.
  intros p [HE HR]. assert (TX : pieces (mkpainted (categorize (lead p)) (cat_parts (rest p))) = map categorize (pieces p)) by (unfold pieces, cat_parts; cbn [lead rest map]; f_equal; rewrite !map_map; reflexivity).
  split; [|split; [unfold source; now rewrite cat_join|exact TX]]. split; [rewrite TX; apply Forall_map; eapply Forall_impl; [|exact HE]; intros a; apply cat_esc|].
  unfold cat_parts. cbn [rest]. apply Forall_map. eapply Forall_impl; [|exact HR]. intros [ps x] K. exact K.
Qed.
Lemma dirty_sub : forall p, painted_ok p -> ~ all_clean (concat (pieces p)) -> In SUB (concat (map categorize (pieces p))).
Proof.
  intros p [HE _] HC. destruct (dirty_in _ HC) as [K|K]; [unfold categorize in K; rewrite concat_map in K; exact K|]. exfalso. revert K. apply cat_esc. intro K. apply in_concat in K. destruct K as (y & Y1 & Y2). rewrite Forall_forall in HE. exact (HE y Y1 Y2).
Qed.
Lemma sub_as_is : forall l, In SUB (concat (map snd l)) -> In SUB (concat (map snd (as_is l))).
Proof.
  intros l H. apply in_concat in H. destruct H as (y & Y1 & Y2). apply in_map_iff in Y1. destruct Y1 as ([ps x] & <- & X). apply in_concat. exists (0x6D :: x). split; [|right; exact Y2].
  unfold as_is. rewrite map_map. apply in_map_iff. now exists (ps, x).
Qed.
Lemma sub_raw : forall l, In SUB (concat (map snd l)) -> In SUB (concat (map snd (raw_parts l))).
Proof.
  intros l H. apply in_concat in H. destruct H as (y & Y1 & Y2). apply in_map_iff in Y1. destruct Y1 as ([ps x] & <- & X). cbn [snd] in Y2. apply in_concat. exists (pipeline (0x6D :: x)). split; [|apply (pipeline_in SUB (0x6D :: x) kept_SUB); right; exact Y2].
  unfold raw_parts. rewrite map_map. apply in_map_iff. now exists (ps, x).
Qed.
Lemma converted_bad : forall p, painted_ok p -> ~ (all_clean (concat (pieces p)) /\ apart p = true) -> exists t l, converted (source p) = rjoin t l /\
  Forall (fun x => Forall parameter (fst x) /\ followed (snd x)) l /\ ~ In ESC t /\ (In SUB (t ++ concat (map snd l)) \/ Exists (fun x => highy (snd x)) l).
Proof.
  intros p HP HC. destruct (all_clean_dec (concat (pieces p))) as [C|C].
  - assert (A : apart p = false) by (destruct (apart p); [exfalso; apply HC; now split|reflexivity]). exists (pipeline (lead p)), (raw_parts (rest p)).
    rewrite converted_clean_pipeline by now apply cat_source. destruct HP as [HE HR]. inversion HE as [|? ? E1 E2]; subst. split; [unfold source; now apply pipeline_rjoin|]. split; [now apply raw_followed|].
    split; [now apply pipe_no_esc|]. right. now apply merge_exists.
  - destruct (cat_painted p HP) as (HP1 & CAT & TX). pose proof (dirty_sub p HP C) as S. rewrite <- TX in S. set (p1 := mkpainted _ _) in *. destruct HP1 as [HE HR]. inversion HE as [|? ? E1 E2]; subst.
    unfold pieces in S. cbn [concat] in S. apply in_app_or in S. unfold converted. rewrite CAT. destruct (_ && _).
    + exists (lead p1), (as_is (rest p1)). split; [apply join_as_is|]. split; [now apply as_is_followed|]. split; [exact E1|]. left. apply in_or_app. destruct S as [S|S]; [now left|right; now apply sub_as_is].
    + exists (pipeline (lead p1)), (raw_parts (rest p1)). split; [unfold source; now apply pipeline_rjoin|]. split; [now apply raw_followed|]. split; [now apply pipe_no_esc|].
      left. apply in_or_app. destruct S as [S|S]; [left; now apply (pipeline_in SUB (lead p1) kept_SUB)|right; now apply sub_raw].
Qed.
Lemma machine_ok : forall p w g, ansi w = true -> wst w = WGround g -> painted_ok p -> all_clean (concat (pieces p)) -> apart p = true ->
  exists q, state_machine w (source p) = (None, built w (shown p) q).
Proof.
  intros p w g HA HW HP HC AP. unfold state_machine. rewrite converted_ok by assumption. apply (sm_join _ _ _ g HA HW).
  - apply Forall_map. eapply Forall_impl; [|exact (proj2 HP)]. now intros [ps x] K.
  - assert (E : texts_of (pipeline (lead p)) (map (fun x => (fst x, pipeline (snd x))) (rest p)) = map pipeline (pieces p)) by (unfold texts_of, pieces; cbn [map]; f_equal; rewrite !map_map; reflexivity).
    rewrite E. apply Forall_map. apply Forall_forall. intros y Y. apply clean_notin, pipeline_all_clean. apply Forall_forall. intros c C. rewrite Forall_forall in HC. apply HC, in_concat. eauto.
Qed.
Lemma machine_bad : forall p w g, ansi w = true -> wst w = WGround g -> painted_ok p -> ~ (all_clean (concat (pieces p)) /\ apart p = true) ->
  exists e w', state_machine w (source p) = (Some e, w') /\ gone w w'.
Proof.
  intros p w g HA HW HP HC. destruct (converted_bad p HP HC) as (t & l & E & K1 & K2 & K3). unfold state_machine. rewrite E. rewrite <- (app_nil_r (rjoin t l)). now apply (sm_rjoin_bad _ _ _ g).
Qed.
Lemma good_dec : forall p, (all_clean (concat (pieces p)) /\ apart p = true) \/ ~ (all_clean (concat (pieces p)) /\ apart p = true).
Proof. intro p. destruct (all_clean_dec (concat (pieces p))) as [C|C]; [|right; tauto]. destruct (apart p); [left; auto|right; intros [_ K]; discriminate]. Qed.
Lemma param_LF : forall ps, Forall parameter ps -> ~ In LF (sgr ps).
Proof.
  intros ps H K. unfold sgr in K. destruct K as [K|[K|K]]; try discriminate K. apply in_app_or in K. destruct K as [K|[K|[]]]; [|discriminate K].
  rewrite Forall_forall in H. apply H in K. unfold parameter, LF in K. lia.
Qed.
Lemma split_painted : forall l t, painted_ok (mkpainted t l) -> In LF (join t l) -> exists p1 p2,
  join t l = source p1 ++ LF :: source p2 /\ ~ In LF (source p1) /\ shown (mkpainted t l) = shown p1 ++ LF :: shown p2 /\
  painted_ok p1 /\ painted_ok p2 /\ concat (texts_of t l) = concat (pieces p1) ++ LF :: concat (pieces p2) /\
  apart (mkpainted t l) = apart p1 && apart p2 /\ merges t = merges (lead p1).
Proof.
  induction l as [|[ps x] l IH]; intros t [HE HR] H; cbn [lead rest pieces] in *; inversion HE as [|? ? E1 E2]; subst;
    (destruct (in_dec N.eq_dec LF t) as [J|J];
     [destruct (first_lf t J) as (a & b & -> & NA);
      match goal with |- context [join _ ?l] => exists (mkpainted a []), (mkpainted b l) end; unfold source, shown, pieces, texts_of; cbn [lead rest map concat]; rewrite !join_nil, ?app_nil_r;
      split; [unfold join; rewrite <- ?app_assoc; reflexivity|]; split; [exact NA|]; split; [rewrite pipeline_LF; unfold join; rewrite <- ?app_assoc; reflexivity|];
      split; [split; [constructor; [|constructor]; intro K; apply E1; apply in_or_app; now left|constructor]|];
      split; [split; [constructor; [intro K; apply E1; apply in_or_app; right; now right|exact E2]|exact HR]|];
      split; [rewrite <- ?app_assoc; cbn [app]; now rewrite ?app_nil_r|split; [reflexivity|apply merges_LF]]|]).
  - rewrite join_nil in H. contradiction.
  - inversion HR as [|? ? R1 R3]; subst. cbn [fst snd] in *. rewrite join_cons in H. cbn [fst snd] in H. apply in_app_or in H. destruct H as [H|H]; [contradiction|].
    apply in_app_or in H. destruct H as [H|H]; [exfalso; now apply (param_LF ps)|].
    destruct (IH x) as (p1 & p2 & A & B & C & D & E & F & G & M); [split; [exact E2|exact R3]|exact H|].
    exists (mkpainted t ((ps, lead p1) :: rest p1)), p2. unfold source, shown, pieces, texts_of in *. cbn [lead rest map concat fst snd] in *.
    rewrite !join_cons. cbn [fst snd]. rewrite A, C, F. rewrite <- !app_assoc. split; [reflexivity|]. split.
    { intro K. apply in_app_or in K. destruct K as [K|K]; [contradiction|]. apply in_app_or in K. destruct K as [K|K]; [now apply (param_LF ps)|contradiction]. }
    split; [reflexivity|]. destruct D as [D1 D2]. split; [|split; [exact E|split; [reflexivity|split; [|reflexivity]]]].
    + split; [constructor; [exact E1|exact D1]|]. constructor; [|exact D2]. exact R1.
    + unfold apart in *. cbn [rest existsb snd] in *. rewrite M. rewrite !negb_orb, G. now rewrite andb_assoc.
Qed.
Definition laid (w : writer) (cs : list N) (q : list N) : writer :=
  mkwriter (buffer w ++ as_sent (crlf w) cs) (crlf w) (expect w) (ansi w) (after cs (wst w)) q (inner w).
Lemma segs_ok : forall n p w g, (length (source p) <= n)%nat -> ansi w = true -> wst w = WGround g -> painted_ok p -> all_clean (concat (pieces p)) -> apart p = true ->
  exists q, crlf_segs w (split_lf (source p)) = (None, mkwriter (buffer w ++ expand (shown p)) (crlf w) (expect w) (ansi w) (after (shown p) (wst w)) q (inner w)).
Proof.
  induction n as [|n IH]; intros p w g HL HA HW HP HC AP; (destruct (in_dec N.eq_dec LF (source p)) as [J|J]; 
    [|rewrite split_lf_none by exact J; cbn [crlf_segs crlf_rest]; destruct (machine_ok p w g HA HW HP HC AP) as [q ->]; exists q;
      rewrite expand_none by (rewrite <- (source_pipeline p HP AP); now apply pipeline_no_lf); reflexivity]).
  - destruct (source p); [destruct J|cbn in HL; lia].
  - destruct p as [t l]. destruct (split_painted l t HP J) as (p1 & p2 & A & B & C & D & E & F & AA & _). unfold source in HL. cbn [lead rest] in HL. rewrite AA in AP. apply andb_prop in AP. destruct AP as [AP1 AP2].
    unfold source at 1. cbn [lead rest]. rewrite A in *. rewrite split_lf_cons by exact B. unfold pieces in HC. cbn [lead rest] in HC. fold (texts_of t l) in HC. rewrite F in HC. apply all_clean_app in HC. destruct HC as [CA CB]. inversion CB as [|? ? _ CB']; subst.
    cbn [crlf_segs]. destruct (machine_ok p1 w g HA HW D CA AP1) as [q1 ->]. destruct (split_lf_nonnil (source p2)) as (x & m & EX). rewrite EX. cbn [crlf_rest].
    set (w1 := built _ _ _). change (match state_machine (push_crlf w1) x with (None, w') => crlf_rest w' m | (Some _, _) as r => r end)
      with (crlf_segs (push_crlf w1) (x :: m)). rewrite <- EX.
    destruct (IH p2 (push_crlf w1) Newline) as [q ->]; [rewrite app_length in HL; cbn in HL; lia|exact HA|reflexivity|exact E|exact CB'|exact AP2|].
    exists q. rewrite C. assert (NL : ~ In LF (shown p1)) by (rewrite <- (source_pipeline p1 D AP1); now apply pipeline_no_lf).
    assert (EA : after (shown p1 ++ LF :: shown p2) (wst w) = after (shown p2) (WGround Newline)).
    { change (LF :: shown p2) with ([LF] ++ shown p2). now rewrite !after_app. }
    assert (EE : expand (shown p1 ++ LF :: shown p2) = shown p1 ++ [CR; LF] ++ expand (shown p2)).
    { rewrite expand_app, (expand_none (shown p1)) by exact NL. reflexivity. }
    rewrite EA, EE. unfold push_crlf, w1, built, set_buf, set_wst. cbn [buffer crlf expect ansi wst escseq inner]. now rewrite <- !app_assoc.
Qed.
Lemma segs_bad : forall n p w g, (length (source p) <= n)%nat -> ansi w = true -> wst w = WGround g -> painted_ok p -> ~ (all_clean (concat (pieces p)) /\ apart p = true) ->
  exists e w', crlf_segs w (split_lf (source p)) = (Some e, w') /\ gone w w'.
Proof.
  induction n as [|n IH]; intros p w g HL HA HW HP HC; (destruct (in_dec N.eq_dec LF (source p)) as [J|J]; 
    [|rewrite split_lf_none by exact J; cbn [crlf_segs crlf_rest]; destruct (machine_bad p w g HA HW HP HC) as (e & w' & -> & K); eauto]).
  - destruct (source p); [destruct J|cbn in HL; lia].
  - destruct p as [t l]. destruct (split_painted l t HP J) as (p1 & p2 & A & B & C & D & E & F & AA & _). unfold source in HL. cbn [lead rest] in HL. 
    unfold source at 1. cbn [lead rest]. rewrite A in *. rewrite split_lf_cons by exact B. unfold pieces in HC. cbn [lead rest] in HC. fold (texts_of t l) in HC. rewrite F, AA in HC.
    cbn [crlf_segs]. destruct (good_dec p1) as [[CA AP]|CA]; [|destruct (machine_bad p1 w g HA HW D CA) as (e & w' & -> & K); eauto].
    assert (CB : ~ (all_clean (concat (pieces p2)) /\ apart p2 = true)) by (intros [CB AP2]; apply HC; split; [apply all_clean_app; split; [exact CA|constructor; [exact clean_LF|exact CB]]|now rewrite AP, AP2]).
    destruct (machine_ok p1 w g HA HW D CA AP) as [q1 ->]. destruct (split_lf_nonnil (source p2)) as (x & m & EX). rewrite EX. cbn [crlf_rest].
    set (w1 := built _ _ _). change (match state_machine (push_crlf w1) x with (None, w') => crlf_rest w' m | (Some _, _) as r => r end)
      with (crlf_segs (push_crlf w1) (x :: m)). rewrite <- EX.
    destruct (IH p2 (push_crlf w1) Newline) as (e & w' & -> & K); [rewrite app_length in HL; cbn in HL; lia|exact HA|reflexivity|exact E|exact CB|]. exists e, w'. split; [reflexivity|exact K].
Qed.
Lemma paint_ok : forall p w g, ansi w = true -> wst w = WGround g -> painted_ok p -> all_clean (concat (pieces p)) -> apart p = true ->
  exists q, write_str w (source p) = write_buffer (laid w (shown p) q).
Proof.
  intros p w g HA HW HP HC AP. unfold write_str, laid, as_sent. destruct (crlf w) eqn:EC.
  - destruct (segs_ok _ p w g (le_n _) HA HW HP HC AP) as [q ->]. exists q. cbn [and_then]. now rewrite EC.
  - destruct (machine_ok p w g HA HW HP HC AP) as [q ->]. exists q. unfold built. cbn [and_then]. now rewrite EC.
Qed.
Lemma paint_bad : forall p w g, ansi w = true -> wst w = WGround g -> painted_ok p -> ~ (all_clean (concat (pieces p)) /\ apart p = true) ->
  exists e w', write_str w (source p) = (Some e, w') /\ gone w w'.
Proof.
  intros p w g HA HW HP HC. unfold write_str. destruct (crlf w).
  - destruct (segs_bad _ p w g (le_n _) HA HW HP HC) as (e & w' & -> & K). cbn. eauto.
  - destruct (machine_bad p w g HA HW HP HC) as (e & w' & -> & K). cbn. eauto.
Qed.

(** * Histories *)
Definition plainly (w : writer) : writer := mkwriter (buffer w) (crlf w) (expect w) false (wst w) [] (inner w).
Definition both (f : writer -> wresult * writer) (w : writer) : Prop :=
  f (plainly w) = (fst (f w), plainly (snd (f w))) /\ ansi (snd (f w)) = ansi w.
Lemma wb_both : forall w, both write_buffer w.
Proof.
  intros [b cr ex an st es k]. unfold both, write_buffer, plainly. cbn [expect buffer inner set_exp]. destruct (ex && _); [split; reflexivity|].
  destruct (sink_write k b) as [[|] k']; split; reflexivity.
Qed.
Lemma text_both : forall w s, both (fun w => write_text w s) w.
Proof.
  intros w s. unfold both, write_text. change (crlf (plainly w)) with (crlf w).
  assert (G : forall l w, fold_left (fun w seg => push_text_seg (push_crlf w) seg) l (plainly w) = plainly (fold_left (fun w seg => push_text_seg (push_crlf w) seg) l w)
    /\ ansi (fold_left (fun w seg => push_text_seg (push_crlf w) seg) l w) = ansi w).
  { induction l as [|x l IH]; intro v; [split; reflexivity|]. cbn [fold_left]. change (push_text_seg (push_crlf (plainly v)) x) with (plainly (push_text_seg (push_crlf v) x)).
    destruct (IH (push_text_seg (push_crlf v) x)) as [-> ->]. split; reflexivity. }
  destruct (crlf w).
  - destruct (split_lf s) as [|x l]; [apply wb_both|]. change (push_text_seg (plainly w) x) with (plainly (push_text_seg w x)). destruct (G l (push_text_seg w x)) as [-> A].
    destruct (wb_both (fold_left (fun w seg => push_text_seg (push_crlf w) seg) l (push_text_seg w x))) as [B C]. rewrite B, C. split; [reflexivity|exact A].
  - exact (wb_both (push_text_seg w s)).
Qed.
Lemma flush_both : forall w, both flush w.
Proof.
  intros [b cr ex an st es k]. unfold both, flush, plainly. cbn [wst inner]. destruct st as [[]| |]; try (split; reflexivity); destruct (sink_call k) as [[|] k']; split; reflexivity.
Qed.
Lemma close_both : forall w, both close w.
Proof.
  intros [b cr ex an st es k]. unfold both, close, check_nl, and_then, plainly. cbn [buffer crlf expect ansi escseq wst inner set_exp].
  destruct st as [[]| |]; cbn [buffer crlf expect ansi escseq wst inner set_exp]; try (split; reflexivity); destruct (sink_call k) as [[|] k']; split; reflexivity.
Qed.
Lemma do_both : forall w o, (match o with OpWriteStr _ | OpWrite _ => False | _ => True end) -> both (fun w => do_op w o) w.
Proof.
  intros w o H. destruct o as [s|s|bs| | |]; try contradiction; cbn [do_op]; [apply text_both|apply flush_both|apply close_both|split; reflexivity].
Qed.
Definition crefines (cr : bool) (d : doc) (w : writer) : Prop := ansi w = true /\ refines cr d (plainly w).
Lemma crefines_ground : forall cr d w, crefines cr d w -> exists g, wst w = WGround g.
Proof. intros cr d w [_ H]. exact (refines_ground _ _ _ H). Qed.
Lemma gone_refines : forall cr d w w', crefines cr d w -> gone w w' -> crefines cr (fail d) w'.
Proof.
  intros cr d w w' [HA (H1 & H2 & HQ & H3 & H4 & H5 & _)] (G1 & G2 & G3 & G4 & G5). split; [congruence|]. unfold refines, plainly in *. cbn in *. rewrite G1, G4, G5. cbn. auto 10.
Qed.
Theorem cop_refines : forall cr d w o, crefines cr d w -> cop_ok o ->
  ok (fst (do_op w (cop_op o))) = fst (spec_cop cr d o) /\ crefines cr (snd (spec_cop cr d o)) (snd (do_op w (cop_op o))).
Proof.
  intros cr d w o HR HO. assert (GEN : (match cop_op o with OpWriteStr _ | OpWrite _ => False | _ => True end) -> plain_op (cop_op o) ->
    ok (fst (do_op w (cop_op o))) = fst (spec_op cr d (cop_op o)) /\ crefines cr (snd (spec_op cr d (cop_op o))) (snd (do_op w (cop_op o)))).
  { intros K P. destruct (do_both w (cop_op o) K) as [B A]. destruct HR as [HA HR]. destruct (op_refines cr d (plainly w) (cop_op o) HR P) as [E R]. rewrite B in E, R. cbn [fst snd] in E, R.
    split; [exact E|]. split; [congruence|exact R]. }
  destruct o as [p|s| | |]; try (apply GEN; exact I); [|apply GEN; [exact I|exact HO]]. clear GEN. cbn [cop_op do_op spec_cop].
  destruct (crefines_ground _ _ _ HR) as [g HG]. pose proof HR as [HA HR']. cbn [cop_ok] in HO. destruct (failed d) eqn:EF.
  - destruct HR' as (H1 & H2 & HQ & H3 & H4 & H5 & H6). rewrite EF in *. cbn in H1, H3, H4, H5, H6.
    assert (G : exists e w', write_str w (source p) = (Some e, w') /\ crlf w' = crlf w /\ ansi w' = ansi w /\ inner w' = inner w /\ wst w' = WGround Newline).
    { destruct (good_dec p) as [[C AP]|C].
      - destruct (paint_ok p w g HA HG HO C AP) as [q ->]. destruct (write_buffer_abandoned (laid w (shown p) q) H4) as (e & w' & E & K1 & K2 & _ & K3 & K4). exists e, w'. auto 10.
      - destruct (paint_bad p w g HA HG HO C) as (e & w' & E & G1 & G2 & G3 & G4 & G5). exists e, w'. rewrite G5. unfold sink_abandon. destruct (inner w) as [em sc ab]. cbn in H4 |- *. subst ab. auto 10. }
    destruct G as (e & w' & -> & K1 & K2 & K3 & K4). cbn. split; [reflexivity|]. split; [congruence|]. unfold refines, plainly. cbn. rewrite K1, K3, EF. auto 10.
  - destruct (forallb allowedb (concat (pieces p)) && apart p) eqn:EA; cbn [negb].
    + apply andb_prop in EA. destruct EA as [EA AP]. apply all_allowed in EA. destruct (paint_ok p w g HA HG HO EA AP) as [q ->]. destruct (wb_both (laid w (shown p) q)) as [B A].
      destruct (send_refines cr d (plainly w) (shown p) HR' EF) as [E R]. change (set_buf _ _) with (plainly (laid w (shown p) q)) in E, R. rewrite B in E, R. cbn [fst snd] in E, R.
      split; [exact E|]. split; [rewrite A; exact HA|exact R].
    + assert (EA' : ~ (all_clean (concat (pieces p)) /\ apart p = true)) by (intros [K AP]; apply all_allowed in K; rewrite K, AP in EA; discriminate).
      destruct (paint_bad p w g HA HG HO EA') as (e & w' & -> & G). cbn [fst snd ok]. split; [reflexivity|]. exact (gone_refines _ _ _ _ HR G).
Qed.
Theorem cops_refine : forall os cr d w, crefines cr d w -> Forall cop_ok os ->
  map ok (fst (do_ops w (map cop_op os))) = fst (spec_cops cr d os) /\ crefines cr (snd (spec_cops cr d os)) (snd (do_ops w (map cop_op os))).
Proof.
  induction os as [|o os IH]; intros cr d w HR HP; [split; [reflexivity|exact HR]|].
  inversion HP as [|? ? P1 P2]; subst. destruct (cop_refines cr d w o HR P1) as [E HR']. cbn [map do_ops spec_cops].
  destruct (do_op w (cop_op o)) as [r w']. destruct (spec_cop cr d o) as [b d']. cbn [fst snd] in *. specialize (IH cr d' w' HR' P2).
  destruct (do_ops w' (map cop_op os)) as [rs w'']. destruct (spec_cops cr d' os) as [bs d'']. cbn [fst snd map] in *. destruct IH as [IH1 IH2].
  split; [congruence|exact IH2].
Qed.
Lemma new_crefines : forall cr p o, crefines cr (new_doc p o) (new_writer cr true (mksink p o false)).
Proof. intros. split; [reflexivity|]. exact (new_refines cr p o). Qed.
Theorem colour_histories : forall cr p o ops rs w, do_ops (new_writer cr true (mksink p o false)) (map cop_op ops) = (rs, w) -> Forall cop_ok ops ->
  let '(bs, d) := spec_cops cr (new_doc p o) ops in
  map ok rs = bs /\ emitted (inner w) = sent d /\ abandoned (inner w) = failed d /\ drop_panics w = negb (failed d || match last_opt (text d) with None => true | Some c => c =? 0xA end).
Proof.
  intros cr p o ops rs w H HP. destruct (cops_refine ops cr _ _ (new_crefines cr p o) HP) as [E [A R]]. rewrite H in E, A, R. cbn [fst snd] in *.
  destruct (spec_cops cr (new_doc p o) ops) as [bs d]. cbn [fst snd] in *. destruct R as (_ & _ & _ & R1 & R2 & R3 & R4). cbn in R1, R2, R3, R4. split; [exact E|]. split; [exact R1|]. split; [exact R2|].
  unfold drop_panics. destruct (failed d); [now rewrite R4|]. destruct R4 as (_ & _ & ->). cbn [orb]. unfold text_ground. destruct (last_opt (text d)) as [c|]; [|reflexivity].
  change LF with 10. destruct (c =? 10); [reflexivity|]. unfold ground_of. now destruct (is_basic_text_end c).
Qed.

(** * Without ESC the option makes no difference *)
Lemma sm_both : forall cs w g, wst w = WGround g -> ~ In ESC cs -> both (fun w => sm_chars w cs) w /\ exists g', wst (snd (sm_chars w cs)) = WGround g'.
Proof.
  induction cs as [|c cs IH]; intros w g HW HE; [repeat split; eauto|]. unfold both in *. cbn [sm_chars].
  assert (K : both (fun w => sm_char w c) w /\ exists g', wst (snd (sm_char w c)) = WGround g').
  { assert (E : c =? ESC = false) by (destruct (c =? ESC) eqn:E; [exfalso; apply HE; left; lia|reflexivity]). destruct w as [b cr ex an st es k]. cbn in HW. subst st.
    unfold both, sm_char, plainly. cbn [wst]. rewrite E. cbn [andb]. destruct (c =? LF); [repeat split; cbn; eauto|]. destruct (c =? SUB); repeat split; cbn; eauto. }
  destruct K as [[K1 K2] [g' K3]]. rewrite K1. destruct (sm_char w c) as [[e|] w1]; cbn [fst snd] in *; [repeat split; eauto|].
  destruct (IH w1 g' K3) as [[A B] C]; [intro K; apply HE; now right|]. rewrite <- K2. repeat split; assumption.
Qed.
Lemma converted_no_esc : forall s, ~ In ESC s -> ~ In ESC (converted s).
Proof. intros s H K. apply (converted_in ESC _ kept_ESC) in K. revert K. now apply cat_esc. Qed.
Definition same_op (f : writer -> wresult * writer) : Prop := forall w g, wst w = WGround g -> both f w /\ exists g', wst (snd (f w)) = WGround g'.
Lemma machine_both : forall s, ~ In ESC s -> same_op (fun w => state_machine w s).
Proof. intros s H w g HW. unfold state_machine. now apply (sm_both _ _ g HW), converted_no_esc. Qed.
Lemma rest_both : forall segs, Forall (fun s => ~ In ESC s) segs -> same_op (fun w => crlf_rest w segs).
Proof.
  induction segs as [|s segs IH]; intros H w g HW; [repeat split; cbn; eauto|]. inversion H as [|? ? H1 H2]; subst. unfold both. cbn [crlf_rest].
  change (push_crlf (plainly w)) with (plainly (push_crlf w)). destruct (machine_both s H1 (push_crlf w) Newline eq_refl) as [[A B] [g' C]]. cbn beta in A. rewrite A.
  destruct (state_machine (push_crlf w) s) as [[e|] w1]; cbn [fst snd] in *; [repeat split; eauto|]. destruct (IH H2 w1 g' C) as [[A' B'] C']. change (ansi (push_crlf w)) with (ansi w) in B. rewrite <- B. repeat split; assumption.
Qed.
Lemma split_no_esc : forall s, ~ In ESC s -> Forall (fun s => ~ In ESC s) (split_lf s).
Proof.
  induction s as [|c s IH]; intro H; cbn [split_lf]; [constructor; [intros []|constructor]|]. specialize (IH (fun K => H (or_intror K))).
  destruct (c =? LF); [constructor; [intros []|exact IH]|]. destruct (split_lf s) as [|x l].
  - constructor; [|constructor]. intros [K|[]]. apply H. now left.
  - inversion IH as [|? ? I1 I2]; subst. constructor; [|exact I2]. intros [K|K]; [apply H; now left|contradiction].
Qed.
Lemma wb_ground : forall w g, wst w = WGround g -> exists g', wst (snd (write_buffer w)) = WGround g'.
Proof.
  intros [b cr ex an st es k] g H. cbn in H. subst st. unfold write_buffer. cbn [expect buffer inner set_exp]. destruct (ex && _); [cbn; eauto|].
  destruct (sink_write k b) as [[|] k']; cbn; eauto.
Qed.
Lemma str_both : forall s, ~ In ESC s -> same_op (fun w => write_str w s).
Proof.
  intros s H w g HW. unfold both, write_str. change (crlf (plainly w)) with (crlf w).
  assert (K : same_op (fun w' => if crlf w then crlf_segs w' (split_lf s) else state_machine w' s)).
  { destruct (crlf w); [|now apply machine_both]. pose proof (split_no_esc s H) as F. destruct (split_lf s) as [|x l]; [intros v gv V; repeat split; cbn; eauto|].
    inversion F as [|? ? F1 F2]; subst. intros v gv V. unfold both. cbn [crlf_segs]. destruct (machine_both x F1 v gv V) as [[A B] [g' C]]. cbn beta in A. rewrite A.
    destruct (state_machine v x) as [[e|] w1]; cbn [fst snd] in *; [repeat split; eauto|]. destruct (rest_both l F2 w1 g' C) as [[A' B'] C']. rewrite <- B. repeat split; assumption. }
  destruct (K w g HW) as [[A B] [g' C]]. cbn beta in A, B, C. rewrite A. remember (if crlf w then crlf_segs w (split_lf s) else state_machine w s) as r eqn:ER. clear ER A. destruct r as [[e|] w1]; cbn [fst snd and_then] in *; [repeat split; eauto|].
  destruct (wb_both w1) as [A' B']. repeat split; [exact A'|congruence|now apply (wb_ground w1 g')].
Qed.
Lemma op_both : forall o, no_esc_op o -> same_op (fun w => do_op w o).
Proof.
  intros o H w g HW. destruct o as [s|s|bs| | |]; cbn [no_esc_op] in H.
  - now apply (str_both s H w g).
  - split; [apply text_both|]. cbn [do_op]. unfold write_text. destruct (crlf w); [|now apply (wb_ground _ (text_ground s))].
    destruct (split_lf s) as [|x l]; [now apply (wb_ground _ g)|].
    assert (G : forall l w g, wst w = WGround g -> exists g', wst (fold_left (fun w seg => push_text_seg (push_crlf w) seg) l w) = WGround g') by (intro m; induction m as [|y m IH]; intros v gv V; [eauto|exact (IH (push_text_seg (push_crlf v) y) (text_ground y) eq_refl)]).
    destruct (G l (push_text_seg w x) (text_ground x) eq_refl) as [g' G']. now apply (wb_ground _ g').
  - cbn [do_op]. unfold both, write_bytes. destruct (decode bs) as [cs junk]. cbn [fst] in H. destruct (str_both cs H w g HW) as [[A B] C]. cbn beta in A.
    destruct junk as [|x junk]; [|destruct cs as [|c cs]; [repeat split; cbn; eauto|]]; rewrite A; destruct (write_str w _) as [r w1]; repeat split; assumption.
  - split; [apply flush_both|]. cbn [do_op]. unfold flush. rewrite HW. destruct g; try (destruct (sink_call (inner w)) as [[|] k']); cbn; eauto.
  - split; [apply close_both|]. cbn [do_op]. unfold close, check_nl, and_then. cbn [wst set_exp]. rewrite HW. destruct g; cbn; eauto. destruct (sink_call (inner w)) as [[|] k']; cbn; eauto.
  - repeat split; cbn; eauto.
Qed.
Theorem plain_same : forall ops cr k rs w, do_ops (new_writer cr true k) ops = (rs, w) -> Forall no_esc_op ops ->
  exists w', do_ops (new_writer cr false k) ops = (rs, w') /\ inner w' = inner w /\ wst w' = wst w.
Proof.
  intros ops cr k rs w H F. assert (G : forall ops w g, wst w = WGround g -> Forall no_esc_op ops -> do_ops (plainly w) ops = (fst (do_ops w ops), plainly (snd (do_ops w ops)))).
  { clear. induction ops as [|o ops IH]; intros w g HW F; [reflexivity|]. inversion F as [|? ? F1 F2]; subst. cbn [do_ops]. destruct (op_both o F1 w g HW) as [[A _] [g' C]]. cbn beta in A. rewrite A.
    destruct (do_op w o) as [r w1]. cbn [fst snd] in *. rewrite (IH w1 g' C F2). destruct (do_ops w1 ops) as [rs w2]. reflexivity. }
  specialize (G ops (new_writer cr true k) Newline eq_refl F). rewrite H in G. cbn [fst snd] in G. exists (plainly w). split; [exact G|split; reflexivity].
Qed.

(** * What a closed writer has sent *)
Lemma unc_app : forall a b, uncoloured a b -> forall c d, uncoloured c d -> uncoloured (a ++ c) (b ++ d).
Proof. induction 1 as [|x s t N H IH|ps s t P H IH]; intros c d K; [exact K|cbn; constructor; auto|rewrite <- app_assoc; constructor; auto]. Qed.
Lemma unc_text : forall t, ~ In ESC t -> uncoloured t t.
Proof. induction t as [|c t IH]; intro H; [constructor|]. constructor; [intro E; apply H; now left|apply IH; intro K; apply H; now right]. Qed.
Lemma unc_join : forall l t, Forall (fun x => Forall parameter (fst x)) l -> Forall (fun t => ~ In ESC t) (texts_of t l) -> uncoloured (join t l) (concat (texts_of t l)).
Proof.
  induction l as [|[ps x] l IH]; intros t HP HT; inversion HT as [|? ? T1 T2]; subst.
  - rewrite join_nil. cbn. rewrite app_nil_r. now apply unc_text.
  - inversion HP as [|? ? P1 P2]; subst. rewrite join_cons. unfold texts_of. cbn [map concat snd fst] in *. apply unc_app; [now apply unc_text|]. apply unc_sgr; [exact P1|]. now apply IH.
Qed.
Lemma shown_uncoloured : forall p, painted_ok p -> uncoloured (shown p) (concat (map pipeline (pieces p))).
Proof.
  intros p [HE HR]. assert (E : map pipeline (pieces p) = texts_of (pipeline (lead p)) (map (fun x => (fst x, pipeline (snd x))) (rest p))) by (unfold texts_of, pieces; cbn [map]; f_equal; rewrite !map_map; reflexivity).
  unfold shown. rewrite E. apply unc_join.
  - apply Forall_map. eapply Forall_impl; [|exact HR]. now intros [ps x] K.
  - rewrite <- E. apply Forall_map. eapply Forall_impl; [|exact HE]. intros a K J. apply K. now apply (pipeline_in ESC a kept_ESC).
Qed.
Lemma substr_no_esc : forall s, is_basic_text_substr s = true -> ~ In ESC s.
Proof. intros s H. apply substr_allowed in H. apply Forall_allowed_clean in H. now apply clean_notin. Qed.
Lemma cop_uncoloured : forall o, cop_ok o -> uncoloured (cop_shown o) (concat (cop_pieces o)).
Proof.
  intros [p|s| | |] H; cbn [cop_shown cop_pieces]; try constructor; [now apply shown_uncoloured|]. cbn [concat]. rewrite app_nil_r. apply unc_text, substr_no_esc, H.
Qed.
Lemma cops_uncoloured : forall ops, Forall cop_ok ops -> uncoloured (concat (map cop_shown ops)) (concat (concat (map cop_pieces ops))).
Proof.
  induction 1 as [|o ops H F IH]; [constructor|]. cbn [map concat]. rewrite concat_app. apply unc_app; [now apply cop_uncoloured|exact IH].
Qed.
Lemma cop_added : forall cr d o b d', spec_cop cr d o = (b, d') -> cop_ok o -> failed d' = false ->
  failed d = false /\ text d' = text d ++ cop_shown o /\ sent d' = sent d ++ as_sent cr (cop_shown o) /\ (is_write (cop_op o) = true -> b = true) /\ Forall allowed (concat (cop_pieces o)).
Proof.
  assert (SD : forall cr d t b d', spec_send cr d t = (b, d') -> failed d' = false -> text d' = text d ++ t /\ sent d' = sent d ++ as_sent cr t /\ b = true).
  { intros cr d t b d' H F. unfold spec_send in H. destruct (_ && _); [injection H as <- <-; discriminate|].
    destruct (outcomes d) as [|[|n] o]; injection H as <- <-; try discriminate; auto. }
  assert (SC : forall d b d', spec_call d = (b, d') -> text d' = text d /\ sent d' = sent d /\ failed d' = failed d).
  { intros d b d' H. unfold spec_call in H. destruct (outcomes d) as [|[|n] o]; injection H as <- <-; auto. }
  assert (NL : forall cr (x : list N), x = x ++ as_sent cr []) by (intros [|] x; cbn; now rewrite app_nil_r).
  intros cr d o b d' H HO F. destruct o as [p|s| | |]; cbn [spec_cop cop_shown cop_pieces cop_op spec_op is_write concat] in *.
  - destruct (failed d) eqn:EF; [injection H as <- <-; congruence|]. destruct (forallb allowedb (concat (pieces p)) && apart p) eqn:EA; cbn [negb] in H; [|injection H as <- <-; discriminate].
    destruct (SD _ _ _ _ _ H F) as (A & B & C). repeat (split; [auto|]). apply andb_prop in EA. destruct EA as [EA _]. apply all_allowed in EA. clear - EA. apply Forall_forall. intros c K. apply in_concat in K. destruct K as (y & Y1 & Y2).
    apply in_map_iff in Y1. destruct Y1 as (x & <- & X). assert (AX : all_clean x) by (apply Forall_forall; intros z Z; rewrite Forall_forall in EA; apply EA, in_concat; eauto).
    apply all_allowed, allowed_pipeline in AX. rewrite Forall_forall in AX. auto.
  - unfold spec_write_text in H. destruct (failed d) eqn:EF; [injection H as <- <-; congruence|]. destruct (SD _ _ _ _ _ H F) as (A & B & C). repeat (split; [auto|]). rewrite app_nil_r. apply substr_allowed, HO.
  - unfold spec_flush in H. destruct (failed d) eqn:EF; [injection H as <- <-; congruence|].
    destruct (opt_all _ _); [destruct (SC _ _ _ H) as (-> & -> & _); rewrite app_nil_r, <- NL; auto 10; repeat split; auto; discriminate|injection H as <- <-; discriminate].
  - unfold spec_close in H. destruct (failed d) eqn:EF; [injection H as <- <-; congruence|].
    destruct (last_opt (text d)) as [c|]; [destruct (c =? 10)|]; try (destruct (SC _ _ _ H) as (-> & -> & _); rewrite app_nil_r, <- NL; repeat split; auto; discriminate); injection H as <- <-; discriminate.
  - injection H as <- <-. discriminate.
Qed.
Lemma cops_added : forall os cr d bs d', spec_cops cr d os = (bs, d') -> Forall cop_ok os -> failed d' = false ->
  failed d = false /\ text d' = text d ++ concat (map cop_shown os) /\ sent d' = sent d ++ as_sent cr (concat (map cop_shown os)) /\
  Forall2 (fun o b => is_write (cop_op o) = true -> b = true) os bs /\ Forall allowed (concat (concat (map cop_pieces os))).
Proof.
  induction os as [|o os IH]; intros cr d bs d' H HO F; cbn [spec_cops] in H.
  - injection H as <- <-. cbn. destruct cr; cbn; rewrite !app_nil_r; auto 10.
  - destruct (spec_cop cr d o) as [b d1] eqn:E1. destruct (spec_cops cr d1 os) as [bs1 d2] eqn:E2. injection H as <- <-. inversion HO as [|? ? O1 O2]; subst.
    destruct (IH _ _ _ _ E2 O2 F) as (F1 & T1 & S1 & W1 & A1). destruct (cop_added _ _ _ _ _ E1 O1 F1) as (F0 & T0 & S0 & W0 & A0).
    split; [exact F0|]. cbn [map concat]. rewrite as_sent_app, concat_app. split; [now rewrite T1, T0, app_assoc|]. split; [now rewrite S1, S0, app_assoc|]. split; [now constructor|now apply Forall_app].
Qed.
Lemma Forall2_cok : forall (P : cop -> Prop) os rs, Forall2 (fun o b => P o -> b = true) os (map ok rs) -> Forall2 (fun o r => P o -> r = None) os rs.
Proof.
  intros P os rs. revert os. induction rs as [|r rs IH]; intros os H; inversion H as [|? ? ? ? HH HT]; subst; constructor; auto.
  intro K. specialize (HH K). destruct r; [discriminate|reflexivity].
Qed.
Theorem colour_closed : forall cr p o ops rs w w', do_ops (new_writer cr true (mksink p o false)) (map cop_op ops) = (rs, w) -> Forall cop_ok ops -> close w = (None, w') ->
  let u := concat (map cop_shown ops) in let v := concat (concat (map cop_pieces ops)) in
  emitted (inner w') = p ++ as_sent cr u /\ uncoloured u v /\ line_terminated u /\ Forall allowed v /\ Forall2 (fun o r => is_write (cop_op o) = true -> r = None) ops rs.
Proof.
  intros cr p o ops rs w w' H HP HC u v. destruct (cops_refine ops cr _ _ (new_crefines cr p o) HP) as [RS R]. rewrite H in RS, R. cbn [fst snd] in RS, R.
  destruct (cop_refines cr _ w CClose R I) as [RC R']. cbn [cop_op do_op spec_cop spec_op] in RC, R'. rewrite HC in RC, R'. cbn [fst snd ok] in RC, R'.
  destruct (spec_cops cr (new_doc p o) ops) as [bs d] eqn:ED. cbn [fst snd] in *.
  unfold spec_close in RC, R'. destruct (failed d) eqn:EF; [discriminate|].
  assert (LT : line_terminated (text d)).
  { destruct (last_opt (text d)) as [c|] eqn:EL; [|left; now apply last_opt_none]. destruct (c =? 10) eqn:E10; [|discriminate].
    right. apply last_opt_some in EL. apply N.eqb_eq in E10. subst c. exact EL. }
  assert (SE : sent (snd (spec_call d)) = sent d) by (unfold spec_call; destruct (outcomes d) as [|[|n] oo]; reflexivity).
  assert (EM : emitted (inner w') = sent d).
  { destruct (last_opt (text d)) as [c|]; [destruct (c =? 10); [|discriminate]|]; destruct R' as (_ & _ & _ & _ & R' & _); cbn in R'; now rewrite R'. }
  destruct (cops_added _ _ _ _ _ ED HP EF) as (_ & TX & SX & W & A). cbn in TX, SX. fold u in TX, SX. fold v in A.
  split; [congruence|]. split; [now apply cops_uncoloured|]. split; [now rewrite <- TX|]. split; [exact A|]. apply Forall2_cok. now rewrite RS.
Qed.
Lemma unc_last : forall a b, uncoloured a b -> forall t, a = t ++ [LF] -> exists z, b = z ++ [LF].
Proof.
  induction 1 as [|x s t N H IH|ps s t P H IH]; intros u E; [destruct u; discriminate| |].
  - destruct u as [|y u]; cbn in E.
    + injection E as -> ->. inversion H as [|? ? ? ? ? |ps s' t' K1 K2 K3]; subst; [exists []; reflexivity]. 
    + injection E as <- E. destruct (IH u E) as [z ->]. exists (x :: z). reflexivity.
  - destruct s as [|c s _] using rev_ind.
    + rewrite app_nil_r in E. unfold sgr in E. change (27 :: 91 :: ps ++ [109]) with ((27 :: 91 :: ps) ++ [109]) in E. apply app_inj_tail in E. destruct E as [_ E]. discriminate E.
    + rewrite app_assoc in E. apply app_inj_tail in E. destruct E as [_ ->]. exact (IH s eq_refl).
Qed.
Lemma unc_lines : forall a b, uncoloured a b -> line_terminated a -> line_terminated b.
Proof.
  intros a b H [->|[t ->]]; [|right; exact (unc_last _ _ H t eq_refl)]. inversion H; subst. now left.
Qed.
Definition nonempty (t : list N) : bool := match t with [] => false | _ => true end.
Lemma concat_nonempty : forall ts, concat (filter nonempty ts) = concat ts.
Proof. induction ts as [|[|c t] ts IH]; cbn [filter nonempty concat]; [reflexivity|exact IH|now rewrite IH]. Qed.
Lemma cop_pieces_nfc : forall o, cop_ok o -> Forall nfc_ss (cop_pieces o).
Proof.
  intros [p|s| | |] H; cbn [cop_pieces]; [apply Forall_map, Forall_forall; intros; apply pipeline_nfc_ss| |constructor|constructor|constructor].
  constructor; [exact (op_text_nfc_ss (OpWriteText s) H)|constructor].
Qed.
Theorem colour_valid : forall cr p o ops rs w w', do_ops (new_writer cr true (mksink p o false)) (map cop_op ops) = (rs, w) -> Forall cop_ok ops -> close w = (None, w') ->
  Forall starts_ok (concat (map cop_pieces ops)) ->
  string_ok (concat (concat (map cop_pieces ops))) <-> forall l a b r, filter nonempty (concat (map cop_pieces ops)) = l ++ a :: b :: r -> ~ joined a b.
Proof.
  intros cr p o ops rs w w' H HP HC HS. destruct (colour_closed _ _ _ _ _ _ _ H HP HC) as (_ & U & L & A & _). pose proof (unc_lines _ _ U L) as LT. rewrite <- concat_nonempty in LT, A |- *.
  set (ts := filter nonempty _) in *. assert (TS : Forall (fun b => b <> [] /\ starts_ok b) ts).
  { apply Forall_forall. intros t K. apply filter_In in K. destruct K as [K1 K2]. rewrite Forall_forall in HS. split; [intros ->; discriminate K2|exact (HS _ K1)]. }
  assert (TN : Forall nfc_ss ts).
  { apply Forall_forall. intros t K. apply filter_In in K. destruct K as [K _]. apply in_concat in K. destruct K as (y & Y1 & Y2). apply in_map_iff in Y1. destruct Y1 as (x & <- & X).
    rewrite Forall_forall in HP. pose proof (cop_pieces_nfc _ (HP x X)) as G. rewrite Forall_forall in G. auto. }
  rewrite <- (chain_nfc_ss ts); [|destruct TS; [constructor|assumption]|exact TN].
  assert (EN : ends_ok (concat ts)). { intros u c EU. destruct LT as [E|[v E]]; rewrite E in EU; [destruct u; discriminate|]. apply app_inj_tail in EU. destruct EU as [_ <-]. exact end_LF. }
  assert (ST : starts_ok (concat ts)) by now apply concat_starts.
  unfold string_ok, substring_ok, nfc_ss. rewrite stream_safe_spec. unfold nfc_text. tauto.
Qed.

(** * Reading it back *)
Lemma replaced_nil_inv : forall can rep rs, replaced can rep [] rs -> rs = [].
Proof.
  intros can rep rs H. inversion H as [|m r t rs' R L T E]; subst; [reflexivity|]. apply app_eq_nil in E. destruct E as [-> ->]. exfalso. clear - R.
  assert (G : forall m, row can rep m r -> m <> []) by (clear; intros m R; destruct R; try discriminate; match goal with H : run_of _ ?f |- _ => destruct H as [H _]; destruct f; [congruence|discriminate] end). exact (G _ R eq_refl).
Qed.
Lemma replaced_nil_inv2 : forall can rep t, replaced can rep t [] -> t = [].
Proof. intros can rep t H. now inversion H. Qed.
Lemma sgr_longest : forall nel lsps ps s, Forall parameter ps -> longest true (char_rep nel lsps) (sgr ps) (sgr ps ++ s).
Proof.
  intros nel lsps ps s H. change (sgr ps ++ s) with ([0x1B] ++ (0x5B :: ps ++ [0x6D]) ++ s). change (sgr ps) with ([0x1B] ++ (0x5B :: ps ++ [0x6D])).
  apply long_esc; [split; [discriminate|repeat constructor]|intros z t E; cbn in E; injection E as <- _; discriminate|].
  intros y' rest HY E. cbn [length]. rewrite app_length. cbn [length]. refine (bound_csi_final true ps 0x6D s H _ _ y' rest HY E); [unfold parameter; lia|].
  intros _ z t EZ. injection EZ as <- _. discriminate.
Qed.
Lemma sgr_row : forall nel lsps ps, Forall parameter ps -> row true (char_rep nel lsps) (sgr ps) [].
Proof. intros nel lsps ps H. apply (row_csi_final true (char_rep nel lsps) [0x1B] ps 0x6D); [split; [discriminate|repeat constructor]|exact H|left; lia]. Qed.
Lemma sgr_sent : forall cr ps, Forall parameter ps -> as_sent cr (sgr ps) = sgr ps.
Proof. intros [|] ps H; [|reflexivity]. apply expand_none. now apply param_LF. Qed.
Lemma coloured_replaced : forall cr nel lsps u v, uncoloured u v -> all_clean v -> exists rs,
  replaced true (char_rep nel lsps) (as_sent cr u) rs /\ concat rs = v /\ (line_terminated u -> needs_newline rs = false).
Proof.
  intros cr nel lsps u v H. induction H as [|c s t HC H IH|ps s t P H IH]; intro CL.
  - exists []. destruct cr; repeat split; constructor.
  - inversion CL as [|? ? C1 C2]; subst. destruct (IH C2) as (rs & R & E & L). exists ([c] :: rs). rewrite <- E. split; [|split; [reflexivity|]].
    + pose proof (sent_replaced cr nel lsps [c] (Forall_cons _ C1 (Forall_nil _))) as SR. cbn [map] in SR.
      change (c :: s) with ([c] ++ s). rewrite as_sent_app.
      destruct (clean_special _ C1) as (N1 & N2 & N3 & _). destruct (cr && (c =? 0xA)) eqn:EC.
      * apply andb_prop in EC. destruct EC as [-> EC]. apply N.eqb_eq in EC. subst c. change (as_sent true [0xA]) with [0xD; 0xA]. constructor; [constructor|exact (long_crlf _ _ _)|exact R].
      * assert (as_sent cr [c] = [c]) as -> by (unfold as_sent; destruct cr; [cbn in *; now rewrite EC|reflexivity]).
        pose proof (row_char true (char_rep nel lsps) c N1 N2 N3) as RC. rewrite (clean_char_rep nel lsps c C1) in RC. constructor; [exact RC|now apply long_char|exact R].
    + intros [K|[z K]]; [discriminate|]. unfold needs_newline, last_nl in *. destruct z as [|y z]; cbn in K; injection K as -> K.
      * subst s. assert (rs = []) as -> by (assert (ES : as_sent cr [] = []) by (destruct cr; reflexivity); rewrite ES in R; now apply replaced_nil_inv in R). reflexivity.
      * specialize (L (or_intror (ex_intro _ z K))). destruct rs as [|r rs _] using rev_ind; [|change ([y] :: rs ++ [r]) with (([y] :: rs) ++ [r]); rewrite !last_opt_snoc in *; exact L].
        exfalso. subst s. apply replaced_nil_inv2 in R. rewrite as_sent_app in R. destruct cr; cbn in R; apply app_eq_nil in R; destruct R; discriminate.
  - destruct (IH CL) as (rs & R & E & L). exists ([] :: rs). rewrite as_sent_app, sgr_sent by exact P. split; [constructor; [now apply sgr_row|now apply sgr_longest|exact R]|]. split; [exact E|].
    intros [K|[z K]]; [discriminate|]. destruct s as [|c s _] using rev_ind.
    + exfalso. rewrite app_nil_r in K. unfold sgr in K. change (27 :: 91 :: ps ++ [109]) with ((27 :: 91 :: ps) ++ [109]) in K. apply app_inj_tail in K. destruct K as [_ K]. discriminate K.
    + rewrite app_assoc in K. apply app_inj_tail in K. destruct K as [_ ->]. specialize (L (or_intror (ex_intro _ s eq_refl))). unfold needs_newline, last_nl in *.
      destruct rs as [|r rs _] using rev_ind; [|change ([] :: rs ++ [r]) with (([] :: rs) ++ [r]); rewrite !last_opt_snoc in *; exact L].
      exfalso. apply replaced_nil_inv2 in R. rewrite as_sent_app in R. destruct cr; cbn in R; apply app_eq_nil in R; destruct R; discriminate.
Qed.
Lemma coloured_translate : forall bom cr nel lsps u v, uncoloured u v -> string_ok v -> line_terminated u -> translate nel lsps (without_bom (stored bom cr u)) = v.
Proof.
  intros bom cr nel lsps u v U (SO & ST & EN) LT. assert (A : all_clean v) by (apply Forall_allowed_clean; apply SO).
  assert (without_bom (stored bom cr u) = as_sent cr u) as ->.
  { unfold stored. destruct bom; [reflexivity|]. cbn [app]. destruct (as_sent cr u) as [|c t] eqn:E; [reflexivity|]. cbn. destruct (c =? 0xFEFF) eqn:EB; [|reflexivity]. apply N.eqb_eq in EB. subst c. exfalso.
    inversion U as [|x s t' N H|ps s t' P H]; subst; [destruct cr; discriminate| |].
    - inversion A as [|? ? C _]; subst. apply clean_special in C. destruct C as (_ & _ & _ & C). destruct cr; cbn in E; [destruct (x =? 10); injection E as E1 _; [discriminate E1|]|injection E as E1 _]; apply C; exact E1.
    - rewrite as_sent_app, sgr_sent in E by exact P. discriminate E. }
  destruct (coloured_replaced cr nel lsps u v U A) as (rs & R & E & L). rewrite (translate_replaced _ _ _ _ R), E, guards_id, (L LT) by assumption. apply app_nil_r.
Qed.
Theorem colour_read_back : forall bom cr nel lsps u v sc sizes rs j rest, uncoloured u v -> line_terminated u -> string_ok v -> Forall (fun c => is_assigned c = true) v ->
  stream_text sc = stored bom cr u -> no_push sc -> bom_visible sc ->
  reads (new_input nel lsps) sc sizes = (rs, j, rest) -> reached_end rs -> delivered rs = v.
Proof.
  intros bom cr nel lsps u v sc sizes rs j rest U LT OK A E NP BV R EN. destruct (session_end _ _ _ _ _ _ _ R EN) as (-> & _).
  rewrite (converted_plain _ _ _ NP BV); rewrite E, (coloured_translate _ _ _ _ u v) by assumption; [|now apply assigned_unguarded]. apply ok_pipeline; [exact OK|now apply assigned_preceded].
Qed.
Theorem colour_written_read_back : forall (bom cr : bool) nel lsps ops rs w w' sc sizes out j rest,
  do_ops (new_writer cr true (mksink (if bom then [BOM] else []) [] false)) (map cop_op ops) = (rs, w) -> Forall cop_ok ops -> close w = (None, w') ->
  let v := concat (concat (map cop_pieces ops)) in string_ok v -> Forall (fun c => is_assigned c = true) v ->
  stream_text sc = emitted (inner w') -> no_push sc -> bom_visible sc -> reads (new_input nel lsps) sc sizes = (out, j, rest) -> reached_end out -> delivered out = v.
Proof.
  intros bom cr nel lsps ops rs w w' sc sizes out j rest H HO HC v OK A E NP BV R EN. destruct (colour_closed _ _ _ _ _ _ _ H HO HC) as (EM & U & L & _).
  apply (colour_read_back bom cr nel lsps _ v sc sizes out j rest U L OK A); auto. rewrite E, EM. reflexivity.
Qed.
