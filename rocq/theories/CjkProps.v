(** Compatibility ideographs can be told from the converted text. *)
From Coq Require Import NArith Arith List Bool Lia ZifyBool ZifyNat ZifyN.
From Verif Require Import Base Ucd UcdTables Norm Chars TextTables TextUtils UcdFacts NormFacts CharFacts DocTable SpecText TextFacts PipelineFacts DocFacts IsoFacts
  Utf8 Utf8Facts Input Output ReadFacts ReadInv ReadSession SpecRead ReadChunk SpecEscape EscapeFacts EscapeRun ReadProps KeepFacts ReadPieces SpecConv ConvFacts DocProps
  SpecCat SpecPush PushProps LossyProps CanonProps Strings SpecString StringProps SpecCjk.
Import ListNotations.
Local Open Scope N_scope.
Arguments N.add : simpl never.
Arguments N.leb : simpl never.
Arguments N.ltb : simpl never.
Arguments N.eqb : simpl never.
Arguments ideograph : simpl never.
Arguments stands_for : simpl never.

(** * The table *)
Definition sel (v : N) : bool := (0xFE00 <=? v) && (v <=? 0xFE02).
Lemma sel_spec : forall v, sel v = true <-> selector v.
Proof. intro v. unfold sel, selector. lia. Qed.
Transparent ccc cd kd compose qc_nfc is_public_assigned cjk_variant.
Definition entry_ok (e : N * (N * N)) : bool :=
  let '(i, (b, v)) := e in
  match nfind i trie_cjk with Some (b', v') => (b' =? b) && (v' =? v) | None => false end
  && boring_b b && boring_b v && sel v && negb (sel b) && negb (sel i) && (0x7F <? i)
  && match qc_nfc i with No => true | _ => false end && is_assigned i.
Lemma chk_entries : forallb entry_ok raw_cjk = true. Proof. vm_compute. reflexivity. Qed.
Lemma chk_stands : forallb (fun e => match stands_for (fst (snd e)) (snd (snd e)) with Some i => i =? fst e | None => false end) raw_cjk = true.
Proof. vm_compute. reflexivity. Qed.
Lemma chk_trie : tall (fun (c : N) (d : N * N) => existsb (fun e => fst e =? c) raw_cjk) trie_cjk = true.
Proof. vm_compute. reflexivity. Qed.
Lemma chk_canon_sel : tall (fun (c : N) (d : list N) => negb (existsb sel d)) trie_canon = true. Proof. vm_compute. reflexivity. Qed.
Definition comp_sel (a b r : N) : bool := negb (sel r).
Lemma chk_comp_sel : tall (fun a l => forallb (fun br => comp_sel a (fst br) (snd br)) l) trie_comp = true. Proof. vm_compute. reflexivity. Qed.
Lemma in_trie : forall c d, nfind c trie_cjk = Some d -> ideograph c = true.
Proof. intros c d H. exact (tall_spec _ _ _ _ _ chk_trie H). Qed.
Lemma entry_facts : forall i b v, In (i, (b, v)) raw_cjk -> cjk1 i = [b; v] /\ boring b /\ boring v /\ selector v /\ ~ selector b /\ ~ selector i /\ qc_nfc i = No /\ is_assigned i = true.
Proof.
  intros i b v H. pose proof chk_entries as K. rewrite forallb_forall in K. specialize (K _ H). unfold entry_ok in K.
  repeat (apply andb_prop in K; let K' := fresh "K" in destruct K as [K K']).
  rewrite <- !sel_spec. refine (conj _ (conj _ (conj _ (conj _ (conj _ (conj _ (conj _ _))))))).
  - unfold cjk1, cjk_variant. destruct (nfind i trie_cjk) as [[b' v']|]; [|discriminate]. destruct (N.leb_spec i 0x7F); [lia|].
    apply andb_prop in K. destruct K as [A B]. apply N.eqb_eq in A, B. now subst.
  - now apply boring_b_spec.
  - now apply boring_b_spec.
  - assumption.
  - intro X. now rewrite X in *.
  - intro X. now rewrite X in *.
  - destruct (qc_nfc i); congruence.
  - assumption.
Qed.
Lemma sel_cd : forall c x, In x (cd c) -> selector x -> c = x.
Proof.
  intros c x HX HK. destruct (cd_cases c) as [E|[[A E]|E]].
  - rewrite E in HX. now destruct HX as [<-|[]].
  - rewrite E in HX. apply (hangul_jamo _ _ A) in HX. unfold is_jamo, in_range, L_BASE, S_BASE, S_COUNT, L_COUNT, V_BASE, V_COUNT, T_BASE, T_COUNT, selector in *. clear - HX HK. lia.
  - apply (canon_lift _ chk_canon_sel) in E. cbn in E. apply negb_true_iff in E. exfalso.
    assert (existsb sel (cd c) = true) by (apply existsb_exists; exists x; split; [exact HX|now apply sel_spec]). congruence.
Qed.
Lemma sel_compose : forall k c r, compose k c = Some r -> ~ selector r.
Proof.
  intros k c r H E. apply sel_spec in E. destruct (compose_inv _ _ _ H) as [(H1 & H2 & ER)|[(H1 & H2 & H3 & ER)|H1]].
  - pose proof (proj1 (LV_decompose _ _ H1 H2)) as K. rewrite <- ER in K. clear - K E. unfold sel, is_hangul_syllable, S_BASE, S_COUNT, in_range in *. lia.
  - clear - H1 H2 H3 ER E. unfold sel, is_hangul_syllable, in_range, S_BASE, S_COUNT, T_BASE, T_COUNT in *. lia.
  - apply (comp_lift comp_sel chk_comp_sel) in H1. unfold comp_sel in H1. rewrite E in H1. discriminate.
Qed.
Global Opaque ccc cd kd compose qc_nfc is_public_assigned cjk_variant.

Lemma ideo_entry : forall c, ideograph c = true -> exists b v, In (c, (b, v)) raw_cjk.
Proof. intros c H. apply existsb_exists in H. destruct H as ([i [b v]] & HI & E). cbn in E. apply N.eqb_eq in E. subst i. eauto. Qed.
Lemma not_ideo : forall c, ideograph c = false -> cjk1 c = [c].
Proof.
  intros c H. unfold cjk1. destruct (c <=? 0x7F); [reflexivity|]. destruct (cjk_variant c) as [[b v]|] eqn:E; [|reflexivity].
  change (nfind c trie_cjk = Some (b, v)) in E. apply in_trie in E. congruence.
Qed.
Lemma stands_entry : forall i b v, stands_for b v = Some i <-> In (i, (b, v)) raw_cjk.
Proof.
  intros i b v. split.
  - unfold stands_for. destruct (find _ raw_cjk) as [[j [b' v']]|] eqn:E; [|discriminate]. intro H. injection H as <-.
    apply find_some in E. destruct E as [E1 E2]. cbn [fst snd] in *. apply andb_prop in E2. destruct E2 as [E2 E3]. apply N.eqb_eq in E2, E3. now subst.
  - intro H. pose proof chk_stands as K. rewrite forallb_forall in K. specialize (K _ H). cbn [fst snd] in K. destruct (stands_for b v); [|discriminate]. apply N.eqb_eq in K. now subst.
Qed.
Lemma stands_sel : forall b v, ~ selector v -> stands_for b v = None.
Proof.
  intros b v H. destruct (stands_for b v) as [i|] eqn:E; [|reflexivity]. apply stands_entry in E. apply entry_facts in E. tauto.
Qed.

(** * Reading the ideographs off *)
Lemma restore_nosel : forall s, no_selector s -> restore s = s.
Proof.
  induction s as [|b s IH]; intro H; [reflexivity|]. inversion H as [|? ? H1 H2]; subst. cbn [restore]. destruct s as [|v t]; [reflexivity|].
  inversion H2; subst. rewrite stands_sel by assumption. now rewrite IH.
Qed.
Lemma restore_app : forall s r, no_selector s -> (forall c t, r = c :: t -> ~ selector c) -> restore (s ++ r) = s ++ restore r.
Proof.
  induction s as [|b s IH]; intros r H R; [reflexivity|]. inversion H as [|? ? H1 H2]; subst. specialize (IH r H2 R). cbn [app]. cbn [restore].
  destruct (s ++ r) as [|v t] eqn:E.
  - apply app_eq_nil in E. destruct E as [-> ->]. reflexivity.
  - assert (~ selector v). { destruct s as [|v' s']; cbn in E; [eapply R; eauto|]. inversion H2; subst. now injection E as <- _. }
    rewrite stands_sel by assumption. now rewrite IH.
Qed.
Lemma restore_pair : forall i b v r, In (i, (b, v)) raw_cjk -> restore (b :: v :: r) = i :: restore r.
Proof. intros i b v r H. cbn [restore]. apply stands_entry in H. now rewrite H. Qed.

Definition norm (s : list N) : list N := nfc (stream_safe s).
Lemma norm_split : forall a i b, boring i -> norm (a ++ i :: b) = norm a ++ i :: norm b.
Proof. intros a i b H. unfold norm. rewrite stream_safe_split by exact H. apply nfc_app_inert. exact (b_inert _ H). Qed.
Lemma norm_nosel : forall s, no_selector s -> no_selector (norm s).
Proof.
  intros s H. apply nfc_forall; [intros k c r E _ _; now apply sel_compose in E|].
  apply Forall_forall. intros z HZ SZ. apply in_flat_map in HZ. destruct HZ as (y & HY & HZ). apply (fun h => sel_cd _ _ h SZ) in HZ. subst y.
  unfold stream_safe in HY. apply ss_in in HY. destruct HY as [HY|E]; [|subst z; unfold selector, CGJ in SZ; lia].
  unfold no_selector in H. rewrite Forall_forall in H. now apply (H z).
Qed.
Lemma norm_noideo : forall s, ideographs (norm s) = [].
Proof.
  intro s. unfold ideographs, norm. pose proof (nfc_notno (stream_safe s)) as H. induction H as [|c t H HF IH]; [reflexivity|]. cbn [filter].
  destruct (ideograph c) eqn:E; [|exact IH]. exfalso. apply ideo_entry in E. destruct E as (b & v & E). apply entry_facts in E. unfold notno in H. tauto.
Qed.
Lemma ideo_split : forall s, ideographs s = [] \/ exists a i b, s = a ++ i :: b /\ ideographs a = [] /\ ideograph i = true.
Proof.
  induction s as [|c s IH]; [now left|]. cbn [ideographs filter]. destruct (ideograph c) eqn:E; [right; exists [], c, s; auto|].
  destruct IH as [IH|(a & i & b & -> & HA & HI)]; [now left|]. right. exists (c :: a), i, b. split; [reflexivity|]. split; [cbn; now rewrite E|exact HI].
Qed.
Lemma ideographs_app : forall a b, ideographs (a ++ b) = ideographs a ++ ideographs b.
Proof. intros. apply filter_app. Qed.
Lemma cjk_none : forall s, ideographs s = [] -> cjk_compat_variants s = s.
Proof.
  induction s as [|c s IH]; intro H; [reflexivity|]. cbn in H. destruct (ideograph c) eqn:E; [discriminate|]. unfold cjk_compat_variants in *. cbn [flat_map].
  rewrite not_ideo by exact E. cbn. now rewrite IH.
Qed.
Lemma nosel_app : forall a b, no_selector (a ++ b) <-> no_selector a /\ no_selector b.
Proof. intros. apply Forall_app. Qed.
(** what conversion makes of text up to its first ideograph, and after it *)
Lemma norm_ideo : forall a i r, ideographs a = [] -> ideograph i = true -> exists b v, In (i, (b, v)) raw_cjk /\
  norm (cjk_compat_variants (a ++ i :: r)) = norm a ++ b :: v :: norm (cjk_compat_variants r).
Proof.
  intros a i r HA HI. destruct (ideo_entry _ HI) as (b & v & HE). exists b, v. split; [exact HE|]. destruct (entry_facts _ _ _ HE) as (E1 & B1 & B2 & _).
  rewrite cjk_app, cjk_none by exact HA. replace (cjk_compat_variants (i :: r)) with (b :: v :: cjk_compat_variants r) by (unfold cjk_compat_variants; cbn [flat_map]; now rewrite E1).
  rewrite norm_split by exact B1. do 2 f_equal. pose proof (norm_split [] v (cjk_compat_variants r) B2) as E. cbn [app] in E. rewrite E. reflexivity.
Qed.
Lemma conv_head : forall s R, no_selector s -> (forall c t, R = c :: t -> ~ selector c) -> forall c t, norm (cjk_compat_variants s) ++ R = c :: t -> ~ selector c.
Proof.
  intros s R H HR c t E.
  assert (G : forall a, no_selector a -> forall R', (forall c t, R' = c :: t -> ~ selector c) -> norm a ++ R' = c :: t -> ~ selector c).
  { intros a HA R' HR' E'. apply norm_nosel in HA. destruct (norm a) as [|x y]; [now apply (HR' c t)|]. cbn in E'. injection E' as <- _. now inversion HA. }
  destruct (ideo_split s) as [HI|(a & i & b & -> & HA & HI)].
  - rewrite cjk_none in E by exact HI. exact (G s H R HR E).
  - destruct (norm_ideo a i b HA HI) as (x & v & HE & EN). rewrite EN, <- app_assoc in E. apply nosel_app in H. destruct H as [H _].
    refine (G a H _ _ E). intros c' t' E'. cbn in E'. injection E' as <- _. apply entry_facts in HE. tauto.
Qed.
Lemma conv_ideographs : forall n s R, (length s <= n)%nat -> no_selector s -> (forall c t, R = c :: t -> ~ selector c) ->
  ideographs (restore (norm (cjk_compat_variants s) ++ R)) = ideographs s ++ ideographs (restore R).
Proof.
  induction n as [|n IH]; intros s R L H HR.
  - destruct s; [|cbn in L; lia]. cbn. reflexivity.
  - destruct (ideo_split s) as [HI|(a & i & b & -> & HA & HI)].
    + rewrite cjk_none by exact HI. rewrite restore_app by (try apply norm_nosel; assumption). rewrite ideographs_app, norm_noideo, HI. reflexivity.
    + destruct (norm_ideo a i b HA HI) as (x & v & HE & EN). apply nosel_app in H. destruct H as [H1 H2]. inversion H2 as [|? ? _ H3]; subst.
      rewrite EN, <- app_assoc. rewrite restore_app; [|now apply norm_nosel|intros c t E; cbn in E; injection E as <- _; apply entry_facts in HE; tauto].
      cbn [app]. rewrite (restore_pair i) by exact HE. rewrite !ideographs_app, norm_noideo, HA. cbn [app ideographs filter]. rewrite HI. cbn [app]. f_equal.
      apply IH; [rewrite app_length in L; cbn in L; lia|assumption|assumption].
Qed.
(** isolation *)
Lemma ideo_CGJ : ideograph CGJ = false. Proof. vm_compute. reflexivity. Qed.
Lemma iso_ideographs : forall s n h, ideographs (isolate_go n h s) = ideographs s.
Proof.
  induction s as [|c s IH]; intros n h; cbn [isolate_go].
  - destruct n; [cbn [ideographs filter]; now rewrite ideo_CGJ|reflexivity].
  - destruct (_ || _); cbn [ideographs filter]; rewrite ?ideo_CGJ; destruct (ideograph c); unfold ideographs in IH; now rewrite IH.
Qed.
Lemma nosel_CGJ : ~ selector CGJ. Proof. unfold selector, CGJ. lia. Qed.
Lemma iso_nosel : forall s, no_selector s -> no_selector (isolate_unassigned s).
Proof.
  intros s H. apply Forall_forall. intros x HX. apply iso_in in HX. destruct HX as [HX| ->]; [|exact nosel_CGJ]. unfold no_selector in H. rewrite Forall_forall in H. auto.
Qed.
Lemma pieces_head : forall ps, Forall no_selector ps -> forall c t, concat (map pipeline ps) = c :: t -> ~ selector c.
Proof.
  induction 1 as [|p ps H HF IH]; intros c t E; [discriminate|]. cbn [map concat] in E. exact (conv_head _ _ (iso_nosel _ H) IH c t E).
Qed.
Lemma pieces_ideographs : forall ps, Forall no_selector ps -> ideographs (restore (concat (map pipeline ps))) = ideographs (concat ps).
Proof.
  induction 1 as [|p ps H HF IH]; [reflexivity|]. cbn [map concat]. rewrite ideographs_app, <- IH.
  change (pipeline p) with (norm (cjk_compat_variants (isolate_unassigned p))).
  rewrite (conv_ideographs (length (isolate_unassigned p))); [|reflexivity|now apply iso_nosel|now apply pieces_head].
  f_equal. unfold isolate_unassigned. apply iso_ideographs.
Qed.

(** * Sessions *)
Lemma replace_nosel : forall nel lsps c, ~ selector c -> no_selector (char_rep nel lsps c).
Proof.
  intros nel lsps c H. unfold char_rep. destruct (_ || _); [constructor; [unfold selector; lia|constructor]|].
  pose proof (replace_spec c) as K. destruct (in_ranges c tbl_replaced); [|rewrite K; now constructor].
  destruct K as [K _]. eapply Forall_impl; [|exact K]. intros x HX. cbv beta in HX. unfold replace_out, WJ, SP, REPL in HX. cbn in HX. unfold selector.
  repeat (destruct HX as [<-|HX]; [lia|]). destruct HX.
Qed.
Lemma replaced_nosel : forall nel lsps s rs, replaced true (char_rep nel lsps) s rs -> no_selector s -> no_selector (concat rs).
Proof.
  intros nel lsps s rs HR H. eapply (replaced_forall true (char_rep nel lsps)); [unfold selector, LF; lia|unfold selector, SP; lia| |exact HR].
  intros x HX. apply replace_nosel. unfold no_selector in H. rewrite Forall_forall in H. auto.
Qed.
Lemma guarded_nosel : forall rs, no_selector (concat rs) -> no_selector (guarded rs).
Proof.
  intros rs H. unfold guarded. assert (G : no_selector (guard_start (concat rs))).
  { unfold guard_start. destruct (concat rs) as [|c t]; [constructor|]. destruct (is_basic_text_start c); [exact H|]. constructor; [unfold selector; lia|exact H]. }
  unfold guard_end. destruct (last_opt _) as [c|]; [|exact G]. destruct (is_basic_text_end c); [exact G|]. apply nosel_app. split; [exact G|]. repeat constructor. unfold selector. lia.
Qed.
Lemma final_nosel : forall rs, no_selector (final_newline rs).
Proof. intro rs. unfold final_newline. destruct (last_opt rs) as [r|]; [|constructor]. destruct (list_eqb r [0xA]); repeat constructor. unfold selector. lia. Qed.
Lemma guarded_ideographs : forall rs, ideographs (guarded rs) = ideographs (concat rs).
Proof.
  intro rs. assert (CG : ideograph 0x34F = false) by exact ideo_CGJ. unfold guarded.
  assert (G : ideographs (guard_start (concat rs)) = ideographs (concat rs)).
  { unfold guard_start. destruct (concat rs) as [|c t]; [reflexivity|]. destruct (is_basic_text_start c); [reflexivity|]. cbn [ideographs filter]. now rewrite CG. }
  rewrite <- G. unfold guard_end. destruct (last_opt _) as [c|]; [|reflexivity]. destruct (is_basic_text_end c); [reflexivity|].
  rewrite ideographs_app. cbn [ideographs filter]. rewrite CG. apply app_nil_r.
Qed.
Lemma final_ideographs : forall rs, ideographs (final_newline rs) = [].
Proof. intro rs. unfold final_newline. destruct (last_opt rs) as [r|]; [|reflexivity]. destruct (list_eqb r [0xA]); vm_compute; reflexivity. Qed.
Lemma pushed_ideographs : forall rss, ideographs (pushed_text rss) = ideographs (concat (map (@concat N) rss)).
Proof.
  intro rss. unfold pushed_text. rewrite ideographs_app, final_ideographs, app_nil_r. induction rss as [|rs rss IH]; [reflexivity|]. cbn [map concat].
  now rewrite !ideographs_app, guarded_ideographs, IH.
Qed.
Lemma segments_nosel : forall script, no_selector (stream_text script) -> Forall no_selector (segments_read script).
Proof.
  intros script H. assert (G : Forall no_selector (segments script)).
  { rewrite <- segments_concat in H. induction (segments script) as [|s r IH]; [constructor|]. cbn in H. apply nosel_app in H. destruct H. constructor; auto. }
  unfold segments_read. destruct G as [|s r HS HR]; [constructor|]. constructor; [|exact HR]. apply Forall_forall. intros c HC. apply without_in in HC.
  unfold no_selector in HS. rewrite Forall_forall in HS. auto.
Qed.
Theorem session_ideographs : forall nel lsps script o rss, gives nel lsps script o -> bom_visible script -> no_selector (stream_text script) ->
  Forall2 (replaced true (char_rep nel lsps)) (segments_read script) rss -> ideographs (restore o) = ideographs (concat (concat rss)).
Proof.
  intros nel lsps script o rss (sizes & out & j & rest & E & R & <-) BV NS F.
  destruct (session_pushed_pieces _ _ _ _ _ _ _ _ E R BV F) as (ps & EP & _ & ->).
  assert (C : concat (concat rss) = concat (map (@concat N) rss)) by (clear; induction rss as [|r rss IH]; [reflexivity|]; cbn; now rewrite concat_app, IH).
  rewrite C, <- pushed_ideographs, <- EP. apply pieces_ideographs.
  assert (G : no_selector (pushed_text rss)).
  { unfold pushed_text. apply nosel_app. split; [|apply final_nosel]. apply segments_nosel in NS. clear - F NS. induction F as [|s rs ss rss H F IH]; [constructor|].
    inversion NS; subst. cbn [map concat]. apply nosel_app. split; [|auto]. apply guarded_nosel. eapply replaced_nosel; eauto. }
  rewrite <- EP in G. clear - G. induction ps as [|p ps IH]; [constructor|]. cbn in G. apply nosel_app in G. destruct G. constructor; auto.
Qed.

(** Text without escape sequences. *)
Lemma char_rep_ideographs : forall nel lsps c, ideographs (char_rep nel lsps c) = ideographs [c].
Proof.
  intros nel lsps c.
  assert (Z : forall x, ~ (0xF900 <= x) -> ideograph x = false).
  { intros x H. destruct (ideograph x) eqn:E; [|reflexivity]. apply ideo_entry in E. destruct E as (b & v & E).
    assert (K : forallb (fun e => 0xF900 <=? fst e) raw_cjk = true) by (vm_compute; reflexivity). rewrite forallb_forall in K. specialize (K _ E). cbn in K. lia. }
  unfold char_rep. destruct (_ || _) eqn:EC.
  - cbn [ideographs filter]. rewrite !Z by lia. reflexivity.
  - pose proof (replace_spec c) as K. destruct (in_ranges c tbl_replaced) eqn:ER; [|now rewrite K].
    assert (NI : ideograph c = false).
    { destruct (ideograph c) eqn:E; [|reflexivity]. apply ideo_entry in E. destruct E as (b & v & E).
      assert (K2 : forallb (fun e => negb (in_ranges (fst e) tbl_replaced)) raw_cjk = true) by (vm_compute; reflexivity).
      rewrite forallb_forall in K2. specialize (K2 _ E). cbn [fst] in K2. rewrite ER in K2. discriminate. }
    cbn [ideographs filter]. rewrite NI. destruct K as [K _].
    assert (KO : forallb (fun x => negb (ideograph x)) replace_out = true) by (vm_compute; reflexivity). rewrite forallb_forall in KO.
    clear - K KO. induction K as [|x t HX K IH]; [reflexivity|]. cbn [ideographs filter]. specialize (KO _ HX). apply negb_true_iff in KO. rewrite KO. exact IH.
Qed.
Lemma run_none : forall x l, run_of x l -> ideograph x = false -> ideographs l = [].
Proof. intros x l [_ H] E. induction H as [|c l -> H IH]; [reflexivity|]. cbn [ideographs filter]. now rewrite E. Qed.
Lemma row_ideographs : forall nel lsps m r, row true (char_rep nel lsps) m r -> ~ In 0x1B m -> ideographs r = ideographs m.
Proof.
  intros nel lsps m r H N.
  assert (I : ideograph 0xC = false /\ ideograph 0xD = false /\ ideograph 0xA = false /\ ideograph 0x20 = false) by (repeat split; vm_compute; reflexivity).
  destruct I as (I1 & I2 & I3 & I4).
  assert (ESC : forall e t, run_of 0x1B e -> ~ In 0x1B (e ++ t) -> False).
  { intros e t [H1 H2] K. destruct H2 as [|c e -> _]; [congruence|]. apply K. now left. }
  destruct H; try (exfalso; eapply ESC; [eassumption|]; eassumption);
    try (exfalso; eapply (ESC e []); [eassumption|]; rewrite app_nil_r; assumption);
    rewrite ?ideographs_app; try (rewrite (run_none 0xC f) by assumption); cbn [ideographs filter app]; rewrite ?I1, ?I2, ?I3, ?I4; try reflexivity.
  apply char_rep_ideographs.
Qed.
Lemma replaced_ideographs : forall nel lsps s rs, replaced true (char_rep nel lsps) s rs -> ~ In 0x1B s -> ideographs (concat rs) = ideographs s.
Proof.
  intros nel lsps s rs H. induction H as [|m r rest rs HR _ _ IH]; intro N; [reflexivity|]. cbn [concat]. rewrite !ideographs_app, IH by (intro K; apply N, in_or_app; now right).
  f_equal. eapply row_ideographs; [eassumption|]. intro K. apply N, in_or_app. now left.
Qed.
Theorem session_ideographs_plain : forall nel lsps script o, gives nel lsps script o -> bom_visible script -> no_selector (stream_text script) -> ~ In 0x1B (stream_text script) ->
  ideographs (restore o) = ideographs (stream_text script).
Proof.
  intros nel lsps script o G BV NS NE. destruct (all_replaced nel lsps (segments_read script)) as [rss F]. rewrite (session_ideographs _ _ _ _ _ G BV NS F).
  assert (E : ideographs (concat (segments_read script)) = ideographs (stream_text script)).
  { rewrite <- segments_concat. unfold segments_read. destruct (segments script) as [|s r]; [reflexivity|]. cbn [concat]. rewrite !ideographs_app. f_equal.
    destruct s as [|c s]; [reflexivity|]. cbn [without_bom]. destruct (N.eqb_spec c 0xFEFF); [|reflexivity]. subst c. cbn [ideographs filter].
    replace (ideograph 0xFEFF) with false by (vm_compute; reflexivity). reflexivity. }
  rewrite <- E. assert (NE' : ~ In 0x1B (concat (segments_read script))).
  { intro K. apply NE. rewrite <- segments_concat. unfold segments_read in K. destruct (segments script) as [|s r]; [exact K|]. cbn [concat] in *.
    apply in_or_app. apply in_app_or in K. destruct K as [K|K]; [left; now apply without_in|now right]. }
  clear - F NE'. induction F as [|s rs ss rss H F IH]; [reflexivity|]. cbn [concat] in *. rewrite concat_app, !ideographs_app, IH by (intro K; apply NE', in_or_app; now right).
  f_equal. eapply replaced_ideographs; [eassumption|]. intro K. apply NE', in_or_app. now left.
Qed.

(** * The way back *)
Lemma cjk_restore : forall n s, (length s <= n)%nat -> ideographs s = [] -> cjk_compat_variants (restore s) = s.
Proof.
  induction n as [|n IH]; intros s L H; [destruct s; [reflexivity|cbn in L; lia]|].
  destruct s as [|b s]; [reflexivity|]. cbn [ideographs filter] in H. destruct (ideograph b) eqn:EB; [discriminate|]. cbn [restore]. destruct s as [|v t].
  - unfold cjk_compat_variants. cbn. rewrite not_ideo by exact EB. reflexivity.
  - destruct (stands_for b v) as [i|] eqn:ES.
    + apply stands_entry in ES. apply entry_facts in ES. destruct ES as (E & _). change (cjk_compat_variants (i :: restore t)) with (cjk1 i ++ cjk_compat_variants (restore t)).
      rewrite E, IH; [reflexivity|cbn in L; lia|]. change (ideographs (v :: t) = []) in H. cbn [ideographs filter] in H. destruct (ideograph v); [discriminate|exact H].
    + change (cjk_compat_variants (b :: restore (v :: t))) with (cjk1 b ++ cjk_compat_variants (restore (v :: t))). rewrite not_ideo, IH by (auto; cbn in *; lia). reflexivity.
Qed.
Transparent ccc cd kd compose qc_nfc is_public_assigned cjk_variant.
Lemma chk_ideo_plain : forallb (fun e => is_basic_text_start (fst e) && negb (in_ranges (fst e) tbl_replaced) && (0xF900 <=? fst e) && negb (fst e =? BOM)) raw_cjk = true.
Proof. vm_compute. reflexivity. Qed.
Global Opaque ccc cd kd compose qc_nfc is_public_assigned cjk_variant.
Lemma restore_in : forall n s x, (length s <= n)%nat -> In x (restore s) -> In x s \/ ideograph x = true.
Proof.
  induction n as [|n IH]; intros s x L H; [destruct s; [destruct H|cbn in L; lia]|].
  destruct s as [|b s]; [destruct H|]. cbn [restore] in H. destruct s as [|v t]; [now left|]. destruct (stands_for b v) as [i|] eqn:ES.
  - destruct H as [<-|H].
    + right. apply stands_entry in ES. apply existsb_exists. exists (i, (b, v)). split; [exact ES|apply N.eqb_refl].
    + apply IH in H; [|cbn in L; lia]. destruct H; [left; right; now right|now right].
  - destruct H as [<-|H]; [left; now left|]. apply IH in H; [|cbn in *; lia]. destruct H; [left; now right|now right].
Qed.
Lemma restore_snoc : forall n s c, (length s <= n)%nat -> ~ selector c -> restore (s ++ [c]) = restore s ++ [c].
Proof.
  induction n as [|n IH]; intros s c L H; [destruct s; [reflexivity|cbn in L; lia]|].
  destruct s as [|b s]; [reflexivity|]. cbn [app restore]. destruct s as [|v t]; cbn [app].
  - rewrite stands_sel by exact H. reflexivity.
  - destruct (stands_for b v); cbn [app]; f_equal; [apply IH; [cbn in L; lia|exact H]|]. change (v :: t ++ [c]) with ((v :: t) ++ [c]). apply IH; [cbn in *; lia|exact H].
Qed.
Lemma restore_starts : forall s, starts_ok s -> starts_ok (restore s).
Proof.
  intros s H c t E. destruct s as [|b s]; [discriminate|]. cbn [restore] in E. destruct s as [|v r]; [injection E as <- _; exact (H b [] eq_refl)|].
  destruct (stands_for b v) as [i|] eqn:ES; injection E as <- _; [|exact (H b (v :: r) eq_refl)].
  apply stands_entry in ES. pose proof chk_ideo_plain as K. rewrite forallb_forall in K. specialize (K _ ES). cbn [fst] in K.
  do 3 (apply andb_prop in K; destruct K as [K _]). exact K.
Qed.
Definition single (nel lsps : bool) (c : N) : Prop := char_rep nel lsps c = [c] /\ c <> 0xD /\ c <> 0xC /\ c <> 0x1B.
Lemma singles_replaced : forall nel lsps s, Forall (single nel lsps) s -> replaced true (char_rep nel lsps) s (map (fun c => [c]) s).
Proof.
  intros nel lsps s H. induction H as [|c s (E0 & N1 & N2 & N3) H IH]; [constructor|]. cbn [map].
  pose proof (row_char true (char_rep nel lsps) c N1 N2 N3) as RC. rewrite E0 in RC.
  change (c :: s) with ([c] ++ s). constructor; [exact RC| |exact IH]. intros m r rest R E.
  assert (K : forall x f, run_of x f -> forall y, f ++ y = c :: s -> c = x).
  { intros x f [NE F] y EF. destruct f as [|z f]; [congruence|]. injection EF as <- _. now inversion F. }
  cbn [app] in E. destruct R; cbn [app length] in *; try (injection E as -> _; contradiction); try lia;
    exfalso; symmetry in E; rewrite <- ?app_assoc in E; match goal with R : run_of ?x ?f |- _ => pose proof (K x f R _ E); congruence end.
Qed.
Lemma clean_noideo : forall s, all_clean s -> ideographs s = [].
Proof.
  intros s H. induction H as [|c s HC H IH]; [reflexivity|]. cbn [ideographs filter]. destruct (ideograph c) eqn:E; [|exact IH].
  apply ideo_entry in E. destruct E as (b & v & E). apply entry_facts in E. destruct E as (E & _). rewrite clean_cjk in E by exact HC. discriminate.
Qed.
Theorem read_restored : forall nel lsps script o x, gives nel lsps script o -> no_push script -> string_ok x -> line_terminated x -> Forall (fun c => is_assigned c = true) x ->
  stream_text script = restore x -> o = x.
Proof.
  intros nel lsps script o x (sizes & out & j & rest & E & R & <-) NP (SU & HS & HE) LT AS ET.
  pose proof SU as (_ & _ & A). apply Forall_allowed_clean in A.
  assert (P : Forall (fun c => single nel lsps c /\ is_assigned c = true /\ c <> BOM) (restore x)).
  { apply Forall_forall. intros c HC. apply (restore_in (length x)) in HC; [|reflexivity]. destruct HC as [HC|HC].
    - assert (CC : clean c = true) by (rewrite Forall_forall in A; auto). destruct (clean_special _ CC) as (N1 & N2 & N3 & N4). repeat split; auto; [now apply clean_char_rep|].
      rewrite Forall_forall in AS. auto.
    - apply ideo_entry in HC. destruct HC as (b & v & HC). pose proof chk_ideo_plain as K. rewrite forallb_forall in K. specialize (K _ HC). cbn [fst] in K.
      apply andb_prop in K. destruct K as [K K3]. apply andb_prop in K. destruct K as [K K2]. apply andb_prop in K. destruct K as [_ K1]. apply entry_facts in HC.
      repeat split; try lia. unfold char_rep. replace (_ || _) with false by (clear - K2; lia). pose proof (replace_spec c) as RS.
      apply negb_true_iff in K1. now rewrite K1 in RS. }
  assert (NB : forall t, restore x <> BOM :: t) by (intros t EQ; rewrite EQ in P; inversion P; tauto).
  assert (WB : without_bom (restore x) = restore x).
  { destruct (restore x) as [|c t] eqn:EQ; [reflexivity|]. cbn. change 0xFEFF with BOM. destruct (N.eqb_spec c BOM); [subst c; elim (NB t); reflexivity|reflexivity]. }
  assert (BV : bom_visible script) by (left; intros t EQ; rewrite ET in EQ; exact (NB t EQ)).
  assert (HR : replaced true (char_rep nel lsps) (without_bom (stream_text script)) (map (fun c => [c]) (restore x))).
  { rewrite ET, WB. apply singles_replaced. eapply Forall_impl; [|exact P]. intros c H. exact (proj1 H). }
  assert (AR : Forall (fun c => is_assigned c = true) (restore x)) by (eapply Forall_impl; [|exact P]; intros c H; exact (proj1 (proj2 H))).
  assert (U : unguarded_text (concat (map (fun c => [c]) (restore x)))).
  { eapply unguarded_assigned; [exact HR|]. now rewrite ET, WB. }
  rewrite (session_conversion _ _ _ _ _ _ _ _ E R NP BV HR U). unfold stream_conversion. rewrite concat_singles, singles_newline.
  assert (ER : ends_ok (restore x) /\ match last_opt (restore x) with None => false | Some c => negb (c =? LF) end = false).
  { destruct LT as [-> |[t ->]]; [split; [exact HE|reflexivity]|]. rewrite (restore_snoc (length t)) by (auto; unfold selector; lia). rewrite last_opt_snoc. split; [|reflexivity].
    apply ends_ok_iff. rewrite last_opt_snoc. vm_compute. reflexivity. }
  destruct ER as [ER1 ER2]. rewrite ER2. rewrite guards_id by (auto using restore_starts). rewrite app_nil_r.
  unfold pipeline, isolate_unassigned. rewrite iso_assigned by exact AR. rewrite (cjk_restore (length x)) by (auto using clean_noideo).
  apply substr_spec, substr_ok_iff in SU. destruct SU as [_ [S1 S2]]. now rewrite S2.
Qed.
Theorem told_apart : forall n1 l1 n2 l2 s1 s2 o, gives n1 l1 s1 o -> gives n2 l2 s2 o -> bom_visible s1 -> bom_visible s2 ->
  no_selector (stream_text s1) -> no_selector (stream_text s2) -> ~ In 0x1B (stream_text s1) -> ~ In 0x1B (stream_text s2) ->
  ideographs (stream_text s1) = ideographs (stream_text s2).
Proof.
  intros n1 l1 n2 l2 s1 s2 o G1 G2 B1 B2 S1 S2 E1 E2. rewrite <- (session_ideographs_plain _ _ _ _ G1 B1 S1 E1). exact (session_ideographs_plain _ _ _ _ G2 B2 S2 E2).
Qed.
Theorem sequences_differ : forall i j b v, In (i, (b, v)) raw_cjk -> In (j, (b, v)) raw_cjk -> i = j.
Proof. intros i j b v H1 H2. apply stands_entry in H1, H2. congruence. Qed.
Theorem strict_refuses : forall check s c t, In c s -> ideograph c = true -> string_from_text check s <> TOk t.
Proof.
  intros check s c t HC HI E. assert (SA : strict_accepts s) by (apply (from_text_succeeds check); eauto). destruct SA as (_ & _ & F). apply Forall_allowed_clean in F.
  apply clean_noideo in F. assert (K : In c (ideographs s)) by (apply filter_In; auto). rewrite F in K. destruct K.
Qed.
