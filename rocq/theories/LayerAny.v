(** A reader whose underlying stream is another reader: streams with pushes and
    unassigned characters. *)
From Coq Require Import NArith Arith List Bool Lia.
From Verif Require Import Base Ucd Norm Chars TextUtils NormFacts CharFacts SpecText TextFacts PipelineFacts IsoFacts KeepFacts
  Utf8 Utf8Facts Input Output ReadFacts ReadInv ReadSession SpecRead ReadChunk SpecEscape ReadProps SpecConv
  SpecWrite Strings SpecString StringProps LossyProps SpecMore CanonProps SpecCut CutProps SpecCat SpecPush PushProps SpecAscii AsciiProps ReadMore ReadPieces SpecLayer OptionProps LayerProps LayerPush.
Import ListNotations.
Local Open Scope N_scope.

(** * U+34F is never lost *)
Lemma iso_count_le : forall s n h, (count s CGJ <= count (isolate_go n h s) CGJ)%nat.
Proof.
  induction s as [|c s IH]; intros n h; cbn [isolate_go]; [apply Nat.le_0_l|].
  destruct (_ || _); rewrite !count_cons; [pose proof (IH (negb (is_assigned c)) false)|pose proof (IH false (c =? CGJ))]; lia.
Qed.
Lemma pipeline_count_any : forall s, all_clean s -> (count s CGJ <= count (pipeline s) CGJ)%nat.
Proof.
  intros s C. unfold pipeline. rewrite cjk_clean_id.
  - eapply Nat.le_trans; [apply (iso_count_le s false false)|]. eapply Nat.le_trans; [apply (ss_count_le _ 0)|]. now apply (nfc_count_le (length (stream_safe (isolate_unassigned s)))).
  - apply Forall_forall. intros x H. apply iso_in in H. destruct H as [H| ->]; [|exact clean_CGJ]. rewrite Forall_forall in C. now apply C.
Qed.
Lemma pieces_count_any : forall ps, Forall (fun p => all_clean p) ps -> (count (concat ps) CGJ <= count (concat (map pipeline ps)) CGJ)%nat.
Proof.
  induction 1 as [|p ps C F IH]; [apply le_n|]. cbn [concat map]. rewrite !count_occ_app. pose proof (pipeline_count_any p C). lia.
Qed.

(** * Pushes at places where nothing is put *)
Definition unpush1 (e : event) : event := match e with Chunk cs Push => Chunk cs Active | _ => e end.
Definition unpush (script : list event) : list event := map unpush1 script.
Lemma unpush_no_push : forall script, no_push (unpush script).
Proof. intros script cs H. apply in_map_iff in H. destruct H as ([c [| |]|] & E & _); discriminate E. Qed.
Lemma unpush_text : forall script, stream_text (unpush script) = stream_text script.
Proof. induction script as [|[cs [| |]|] t IH]; cbn; try reflexivity; fold (unpush t); now rewrite IH. Qed.
Lemma unpush_pieces : forall script, pieces_read (unpush script) = pieces_read script.
Proof. induction script as [|[cs [| |]|] t IH]; cbn; try reflexivity; fold (unpush t); now rewrite IH. Qed.
Lemma unpush_cut : forall script, badly_cut (unpush script) <-> badly_cut script.
Proof. intro script. unfold badly_cut. now rewrite unpush_pieces. Qed.
Lemma segments_first : forall script, exists s r, segments script = s :: r.
Proof. induction script as [|[cs [| |]|] t (s & r & E)]; cbn; rewrite ?E; eauto. Qed.

Lemma clean_body : forall a raw, all_clean raw -> body a raw = raw.
Proof.
  intros [|] [|c raw] C; try reflexivity. unfold body. destruct (N.eqb_spec c BOM) as [->|]; [|reflexivity]. apply Forall_inv in C. vm_compute in C. discriminate.
Qed.
Lemma starts_hstart : forall s, starts_ok s -> hstart s.
Proof. intros [|c s] H; [reflexivity|]. exact (H c s eq_refl). Qed.
Lemma ends_join : forall a b, ends_ok a -> ends_ok b -> ends_ok (a ++ b).
Proof.
  intros a b HA HB t c E. destruct b as [|d b _] using rev_ind; [rewrite app_nil_r in E; now apply (HA t)|]. rewrite app_assoc in E. apply app_inj_tail in E. destruct E as [_ <-]. now apply (HB b).
Qed.
Lemma incomplete_ends : forall q x, ends_ok (q ++ x) -> ends_ok (incomplete q ++ x).
Proof. intros q x H. rewrite (blocks_split q), <- app_assoc in H. now apply ends_app_r in H. Qed.
Lemma fin_ends : forall q b nl, ends_ok q -> fin Push (last_opt q) (b, Ground nl) = ([], (b, Ground nl)).
Proof.
  intros q b nl H. unfold fin. cbn [is_active is_end snd last_opt app]. destruct (last_opt q) as [y|] eqn:E; [|reflexivity].
  destruct q as [|z q _] using rev_ind; [discriminate|]. rewrite last_opt_snoc in E. injection E as ->. now rewrite (H q y eq_refl).
Qed.
Lemma fin_flag : forall s l b b2 nl, exists o x, fin s l (b, Ground nl) = (o, (fst x, snd x)) /\ exists x2, fin s l (b2, Ground nl) = (o, x2) /\ snd x2 = snd x.
Proof.
  intros s l b b2 nl. unfold fin. destruct s; cbn [is_active is_end snd last_opt app].
  - exists [], (b, Ground nl). split; [reflexivity|]. eexists. split; reflexivity.
  - eexists _, (b, Ground nl). split; [reflexivity|]. eexists. split; reflexivity.
  - cbn [is_ground_nl]. destruct nl.
    + eexists _, (b, Ground true). split; [reflexivity|]. eexists. split; reflexivity.
    + eexists _, (false, Ground true). split; [reflexivity|]. eexists. split; reflexivity.
Qed.
Lemma trans_flag : forall s b b2 nl, all_clean s -> (b = true -> starts_ok s) -> (b2 = true -> starts_ok s) ->
  exists b' b2' nl', trans false false (b, Ground nl) s = (s, (b', Ground nl')) /\ trans false false (b2, Ground nl) s = (s, (b2', Ground nl')) /\
    (s = [] -> b' = b /\ b2' = b2) /\ (s <> [] -> b' = false /\ b2' = false).
Proof.
  intros s b b2 nl C H H2.
  destruct (trans_clean s b nl C (fun E => starts_hstart _ (H E))) as (b' & nl' & E1 & A1 & B1).
  destruct (trans_clean s b2 nl C (fun E => starts_hstart _ (H2 E))) as (b2' & nl2' & E2 & A2 & B2).
  assert (nl2' = nl') as -> by (destruct s as [|c s]; [destruct (A1 eq_refl) as [_ ->], (A2 eq_refl) as [_ ->]; reflexivity|destruct (B1 ltac:(discriminate)) as [_ ->], (B2 ltac:(discriminate)) as [_ ->]; reflexivity]).
  exists b', b2', nl'. split; [exact E1|]. split; [exact E2|]. split; intro K; [destruct (A1 K), (A2 K)|destruct (B1 K), (B2 K)]; auto.
Qed.
Lemma starts_app : forall a b, starts_ok (a ++ b) -> starts_ok a.
Proof. intros [|c a] b H d t E; [discriminate|]. injection E as <- <-. exact (H c (a ++ b) eq_refl). Qed.
Lemma feed_unpush : forall script s r res b b2 nl st, all_clean (stream_text script) -> segments script = s :: r ->
  ends_ok (res ++ s) -> Forall ends_ok r -> Forall starts_ok r -> (b = true -> starts_ok s) -> (b2 = true -> starts_ok s) ->
  fst (feed false false (mkabs res (b, Ground nl) st) (evs_of script)) = fst (feed false false (mkabs res (b2, Ground nl) st) (evs_of (unpush script))).
Proof.
  assert (LAST : forall cs res b b2 nl st, all_clean cs -> (b = true -> starts_ok cs) -> (b2 = true -> starts_ok cs) ->
    fst (feed false false (mkabs res (b, Ground nl) st) [(cs, End)]) = fst (feed false false (mkabs res (b2, Ground nl) st) [(cs, End)])).
  { intros cs res b b2 nl st C H H2. cbn [feed]. unfold absorb, pushed. cbn [a_res a_ts a_start]. rewrite clean_body by exact C.
    destruct (trans_flag cs b b2 nl C H H2) as (b' & b2' & nl' & -> & -> & _).
    destruct (fin_flag End (last_opt (res ++ cs)) b' b2' nl') as (o & x & -> & x2 & -> & _). reflexivity. }
  induction script as [|[cs x|] t IH]; intros s r res b b2 nl st C ES EE FE FS H H2.
  - cbn [unpush map evs_of]. cbn in ES. injection ES as <- <-. now apply LAST.
  - destruct (segments_first t) as (s0 & r0 & E0). destruct x.
    + cbn [stream_text segments] in C, ES. rewrite E0 in ES. injection ES as <- <-. apply Forall_app in C. destruct C as [C1 C2].
      cbn [unpush map unpush1 evs_of feed]. unfold absorb, pushed. cbn [a_res a_ts a_start]. rewrite clean_body by exact C1.
      destruct (trans_flag cs b b2 nl C1 (fun K => starts_app _ _ (H K)) (fun K => starts_app _ _ (H2 K))) as (b' & b2' & nl' & -> & -> & A & B).
      cbn [fin is_active fst snd]. rewrite app_nil_r.
      assert (K : fst (feed false false (mkabs (incomplete (res ++ cs)) (b', Ground nl') false) (evs_of t)) =
                  fst (feed false false (mkabs (incomplete (res ++ cs)) (b2', Ground nl') false) (evs_of (unpush t)))).
      { apply (IH s0 r0); auto.
        - apply incomplete_ends. now rewrite <- app_assoc.
        - intros ->. destruct cs as [|c cs]; [apply H; symmetry; now apply A|]. destruct (B ltac:(discriminate)) as [K _]. discriminate K.
        - intros ->. destruct cs as [|c cs]; [apply H2; symmetry; now apply A|]. destruct (B ltac:(discriminate)) as [_ K]. discriminate K. }
      fold (unpush t). destruct (feed false false _ (evs_of t)). destruct (feed false false _ (evs_of (unpush t))). cbn [fst] in *. now rewrite K.
    + cbn [stream_text segments] in C, ES. injection ES as <- <-. apply Forall_app in C. destruct C as [C1 C2].
      rewrite E0 in FE, FS. pose proof (Forall_inv FE) as FE1. pose proof (Forall_inv_tail FE) as FE2. pose proof (Forall_inv FS) as FS1. pose proof (Forall_inv_tail FS) as FS2.
      cbn [unpush map unpush1 evs_of feed]. unfold absorb, pushed. cbn [a_res a_ts a_start]. rewrite clean_body by exact C1.
      destruct (trans_flag cs b b2 nl C1 H H2) as (b' & b2' & nl' & -> & -> & A & B).
      rewrite (fin_ends (res ++ cs)) by exact EE. cbn [fin is_active fst snd]. rewrite app_nil_r.
      assert (K : fst (feed false false (mkabs (incomplete (res ++ cs)) (true, Ground nl') false) (evs_of t)) =
                  fst (feed false false (mkabs (incomplete (res ++ cs)) (b2', Ground nl') false) (evs_of (unpush t)))).
      { apply (IH s0 r0); auto. apply incomplete_ends. now apply ends_join. }
      fold (unpush t). destruct (feed false false _ (evs_of t)). destruct (feed false false _ (evs_of (unpush t))). cbn [fst] in *. now rewrite K.
    + cbn [unpush map unpush1 evs_of]. cbn [stream_text segments] in C, ES. injection ES as <- <-. now apply LAST.
  - cbn [unpush map unpush1 evs_of]. cbn [stream_text segments] in C, ES. now apply (IH s r).
Qed.
Theorem converted_unpush : forall script, all_clean (stream_text script) -> Forall (fun s => starts_ok s /\ ends_ok s) (segments script) ->
  converted_stream false false script = converted_stream false false (unpush script).
Proof.
  intros script C F. destruct (segments_first script) as (s & r & E). rewrite E in F.
  unfold converted_stream, abs0. apply (feed_unpush script s r); auto.
  - cbn [app]. now apply (Forall_inv F).
  - apply Forall_inv_tail in F. eapply Forall_impl; [|exact F]. now intros x [_ K].
  - apply Forall_inv_tail in F. eapply Forall_impl; [|exact F]. now intros x [K _].
  - intros _. now apply (Forall_inv F).
  - intros _. now apply (Forall_inv F).
Qed.

(** * Reading valid text with pushes *)
Theorem read_valid_any : forall nel lsps script text t, gives nel lsps script text -> stream_text script = t -> string_ok t -> line_terminated t -> preceded t ->
  (text = t <-> Forall (fun s => starts_ok s /\ ends_ok s) (segments script) /\ ~ badly_cut script).
Proof.
  intros nel lsps script text t (sizes & rs & j & rest & H & E & <-) ET OK LT PR.
  destruct (ok_no_bom _ OK) as [NB NB2]. pose proof OK as (SO & _ & _). pose proof SO as (_ & _ & AL0). pose proof AL0 as AL. apply Forall_allowed_clean in AL.
  set (ss := segments script).
  assert (EC : concat ss = t) by (unfold ss; now rewrite segments_concat).
  assert (KEY : delivered rs = t -> Forall (fun s => starts_ok s /\ ends_ok s) ss).
  { set (rss := map (map (fun c : N => [c])) ss).
    assert (FC : Forall (fun s => all_clean s) ss) by (apply Forall_concat; now rewrite EC).
    assert (SR : segments_read script = ss).
    { unfold segments_read. fold ss. destruct ss as [|s r]; [reflexivity|]. f_equal. destruct s as [|c s]; [reflexivity|]. cbn. change 0xFEFF with BOM.
      destruct (c =? BOM) eqn:EB; [|reflexivity]. apply N.eqb_eq in EB. subst c. elim (NB2 (s ++ concat r)). now rewrite <- EC. }
    assert (F : Forall2 (replaced true (char_rep nel lsps)) (segments_read script) rss).
    { rewrite SR. unfold rss. clear - FC. induction FC as [|s r HS FC IH]; cbn; constructor; auto. now apply clean_replaced_any. }
    set (g := concat (map (fun s => guard_end (guard_start s)) ss)).
    assert (T : pushed_text rss = g).
    { unfold pushed_text, rss. rewrite <- concat_map, final_singles, EC, valid_missing, app_nil_r by exact LT. unfold g. f_equal. rewrite map_map. apply map_ext. intro s. unfold guarded. now rewrite concat_singles. }
    assert (GC : all_clean g).
    { unfold g. clear - FC. induction FC as [|s r HS FC IH]; [constructor|]. cbn. apply Forall_app. split; [|exact IH]. apply guard_forall; [exact clean_CGJ|exact HS]. }
    assert (BV : bom_visible script) by (left; intro u; rewrite ET; apply NB2).
    destruct (session_pushed_pieces _ _ _ _ _ _ _ _ H E BV F) as (ps & EP & _ & ED).
    intro EQ. apply (proj2 (guards_count ss)). fold g. rewrite EC, <- EQ, ED, <- T, <- EP. apply pieces_count_any. apply Forall_concat. now rewrite EP, T. }
  assert (CONV : Forall (fun s => starts_ok s /\ ends_ok s) ss -> (delivered rs = t <-> ~ badly_cut script)).
  { intro F. destruct (session_end _ _ _ _ _ _ _ H E) as (-> & _).
    rewrite (options_indifferent nel lsps false false script) by (rewrite ET; now apply clean_indifferent).
    rewrite converted_unpush; [|now rewrite ET|exact F].
    destruct (session_terminates false false (unpush script)) as [m HM]. destruct (HM (repeat 136%nat m)) as (k & rs0 & j0 & rest0 & R0 & E0).
    - apply Forall_forall. intros b HB. apply repeat_spec in HB. subst. auto.
    - rewrite repeat_length. auto.
    - destruct (session_end _ _ _ _ _ _ _ R0 E0) as (D0 & _). rewrite <- D0. pose proof (kept_exact_any _ _ _ _ _ _ _ (unpush_no_push script) R0 E0) as K.
      rewrite unpush_text, ET, unpush_cut in K. rewrite K. tauto. }
  split; [intro EQ; pose proof (KEY EQ) as F; split; [exact F|now apply CONV]|intros [F NC]; now apply CONV].
Qed.
Theorem read_again_any : forall nel lsps nel2 lsps2 script script2 text text2, gives nel lsps script text -> gives nel2 lsps2 script2 text2 ->
  stream_text script2 = text ->
  (text2 = text <-> Forall (fun s => starts_ok s /\ ends_ok s) (segments script2) /\ ~ badly_cut script2).
Proof.
  intros nel lsps nel2 lsps2 script script2 text text2 (z & rs & j & rest & H & E & <-) G2 ES.
  destruct (session_is_text_buffers _ _ _ _ _ _ _ H E) as [OK LT]. apply (read_valid_any nel2 lsps2); auto.
  destruct (delivered_prefix _ _ _ _ _ _ _ H) as [more EP]. apply (preceded_prefix _ more). rewrite <- EP. apply converted_preceded.
Qed.
Theorem layered_any : forall nel lsps nel2 lsps2 script sizes rs j rest text2, reads (new_input nel lsps) script sizes = (rs, j, rest) -> ends_once rs ->
  gives nel2 lsps2 (layer rs) text2 ->
  (text2 = delivered rs <-> Forall starts_ok (segments (layer rs)) /\ ~ badly_cut (layer rs)).
Proof.
  intros nel lsps nel2 lsps2 script sizes rs j rest text2 H EO G2.
  assert (RE : reached_end rs) by (destruct EO as (rs' & n & cs & -> & _); now exists rs', n, cs).
  destruct (session_is_text_buffers _ _ _ _ _ _ _ H RE) as [OK LT].
  rewrite (read_again_any nel lsps nel2 lsps2 script (layer rs) (delivered rs) text2); [|now exists sizes, rs, j, rest|exact G2|exact (layer_text _ EO)].
  destruct (layer_ends rs [] EO) as (s & r & ES & E1 & E2).
  - apply OK.
  - intros a n cs b ->. exact (push_ends _ _ _ _ _ _ _ _ _ _ H).
  - rewrite ES. cbn [app] in E1. split; intros [F NC]; (split; [|exact NC]).
    + eapply Forall_impl; [|exact F]. now intros x [K _].
    + apply Forall_forall. intros x HX. rewrite Forall_forall in F. split; [now apply F|]. destruct HX as [<-|HX]; [exact E1|]. rewrite Forall_forall in E2. now apply E2.
Qed.
