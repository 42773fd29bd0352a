(** The reader performs the documented conversion. *)
From Coq Require Import NArith Arith List Bool Lia ZifyBool ZifyNat ZifyN.
From Verif Require Import Base Ucd UcdTables Norm Chars TextTables TextUtils Utf8 Input DocTable SpecRead SpecEscape SpecText SpecConv UcdFacts NormFacts CharFacts TextFacts PipelineFacts IsoFacts Utf8Facts ReadFacts ReadInv ReadSession ReadChunk EscapeFacts EscapeRun ReadProps.
Import ListNotations.
Local Open Scope N_scope.
Arguments N.add : simpl never.
Arguments N.leb : simpl never.
Arguments N.ltb : simpl never.
Arguments N.eqb : simpl never.

(** * Singletons: rows of the table that the code leaves to normalization *)
Definition sing (c : N) : N :=
  if c =? 0x2126 then 0x3A9 else if c =? 0x212A then 0x4B else if c =? 0x212B then 0xC5 else c.
Transparent ccc cd kd compose qc_nfc is_public_assigned cjk_variant.
Lemma sing_cases : forall c, sing c = c \/ (sing c, c) = (0x3A9, 0x2126) \/ (sing c, c) = (0x4B, 0x212A) \/ (sing c, c) = (0xC5, 0x212B).
Proof.
  intro c. unfold sing. destruct (N.eqb_spec c 0x2126); [subst; auto|]. destruct (N.eqb_spec c 0x212A); [subst; auto|]. destruct (N.eqb_spec c 0x212B); subst; auto.
Qed.
Lemma sing_cd : forall c, cd (sing c) = cd c.
Proof. intro c. destruct (sing_cases c) as [E|[E|[E|E]]]; [now rewrite E|injection E as E ->; rewrite E; vm_compute; reflexivity ..]. Qed.
Lemma sing_pat : forall c, pat (sing c) = pat c.
Proof. intro c. destruct (sing_cases c) as [E|[E|[E|E]]]; [now rewrite E|injection E as E ->; rewrite E; vm_compute; reflexivity ..]. Qed.
Lemma sing_assigned : forall c, is_assigned (sing c) = is_assigned c.
Proof. intro c. destruct (sing_cases c) as [E|[E|[E|E]]]; [now rewrite E|injection E as E ->; rewrite E; vm_compute; reflexivity ..]. Qed.
Lemma sing_CGJ : forall c, (sing c =? CGJ) = (c =? CGJ).
Proof. intro c. destruct (sing_cases c) as [E|[E|[E|E]]]; [now rewrite E|injection E as E ->; rewrite E; vm_compute; reflexivity ..]. Qed.
Lemma sing_LF : forall c, (sing c =? LF) = (c =? LF).
Proof. intro c. destruct (sing_cases c) as [E|[E|[E|E]]]; [now rewrite E|injection E as E ->; rewrite E; vm_compute; reflexivity ..]. Qed.
Lemma sing_lead : forall c, cl_leading (sing c) = cl_leading c.
Proof. intro c. destruct (sing_cases c) as [E|[E|[E|E]]]; [now rewrite E|injection E as E ->; rewrite E; vm_compute; reflexivity ..]. Qed.
Lemma sing_count : forall c n, count_next n (sing c) = count_next n c.
Proof. intros c n. destruct (sing_cases c) as [E|[E|[E|E]]]; [now rewrite E|injection E as E ->; rewrite E; vm_compute; reflexivity ..]. Qed.
Lemma sing_cjk1 : forall c, sing c <> c -> cjk1 (sing c) = [sing c] /\ cjk1 c = [c].
Proof. intros c H. destruct (sing_cases c) as [E|[E|[E|E]]]; [congruence|injection E as E ->; rewrite E; vm_compute; split; reflexivity ..]. Qed.
Lemma chk_cjk_sing : tall (fun (c : N) (d : N * N) => (sing (fst d) =? fst d) && (sing (snd d) =? snd d)) trie_cjk = true.
Proof. vm_compute. reflexivity. Qed.
Lemma cjk_sing : forall c, cjk1 (sing c) = map sing (cjk1 c).
Proof.
  intro c. destruct (N.eq_dec (sing c) c) as [E|E].
  - rewrite E. unfold cjk1. destruct (c <=? 127); [cbn; now rewrite E|]. unfold cjk_variant.
    destruct (nfind c trie_cjk) as [[b v]|] eqn:EC; [|cbn; now rewrite E].
    apply (tall_spec _ _ _ _ _ chk_cjk_sing) in EC. cbn [fst snd] in EC. apply andb_prop in EC. destruct EC as [E1 E2]. cbn. f_equal; [lia|f_equal; lia].
  - destruct (sing_cjk1 c E) as [-> ->]. reflexivity.
Qed.
Lemma chk_cjk_cgj : tall (fun (c : N) (d : N * N) => negb (fst d =? CGJ) && negb (snd d =? CGJ) && negb (c =? CGJ)) trie_cjk = true.
Proof. vm_compute. reflexivity. Qed.
Lemma cjk_shape : forall c, cjk1 c = [c] \/ exists b v, cjk1 c = [b; v] /\ c <> CGJ /\ b <> CGJ /\ v <> CGJ.
Proof.
  intro c. unfold cjk1. destruct (c <=? 127); [now left|]. unfold cjk_variant. destruct (nfind c trie_cjk) as [[b v]|] eqn:EC; [|now left].
  right. exists b, v. split; [reflexivity|]. apply (tall_spec _ _ _ _ _ chk_cjk_cgj) in EC. cbn [fst snd] in EC. lia.
Qed.
Global Opaque ccc cd kd compose qc_nfc is_public_assigned cjk_variant.

Lemma iso_sing : forall s n h, isolate_go n h (map sing s) = map sing (isolate_go n h s).
Proof.
  induction s as [|c t IH]; intros n h; cbn [map isolate_go].
  - destruct n; reflexivity.
  - rewrite sing_assigned, sing_CGJ. destruct (_ || _); cbn [map]; rewrite IH; reflexivity.
Qed.
Lemma cjk_map : forall s, cjk_compat_variants (map sing s) = map sing (cjk_compat_variants s).
Proof. induction s as [|c s IH]; [reflexivity|]. unfold cjk_compat_variants in *. cbn. rewrite IH, cjk_sing, map_app. reflexivity. Qed.
Lemma ss_sing : forall s n, stream_safe_go n (map sing s) = map sing (stream_safe_go n s).
Proof.
  induction s as [|c t IH]; intro n; cbn [map stream_safe_go]; [reflexivity|].
  rewrite sing_lead, !sing_count. destruct (Nat.ltb _ _); cbn [map]; rewrite IH; reflexivity.
Qed.
Lemma nfc_sing : forall s, nfc (map sing s) = nfc s.
Proof.
  intro s. unfold nfc, nfd. do 2 f_equal. induction s as [|c t IH]; [reflexivity|]. cbn. now rewrite sing_cd, IH.
Qed.
Lemma pipeline_sing : forall s, pipeline (map sing s) = pipeline s.
Proof.
  intro s. unfold pipeline, isolate_unassigned, stream_safe. now rewrite iso_sing, cjk_map, ss_sing, nfc_sing.
Qed.

(** * Variants and isolation commute *)
Lemma cjk_unassigned : forall c, is_assigned c = false -> cjk1 c = [c].
Proof. intros c H. exact (b_cjk _ (unassigned_boring _ H)). Qed.
Lemma iso_cjk : forall s n h, isolate_go n h (cjk_compat_variants s) = cjk_compat_variants (isolate_go n h s).
Proof.
  assert (CC : forall l, cjk_compat_variants (CGJ :: l) = CGJ :: cjk_compat_variants l) by (intro l; unfold cjk_compat_variants; cbn [flat_map]; now rewrite (b_cjk _ boring_CGJ)).
  assert (CS : forall c l, cjk_compat_variants (c :: l) = cjk1 c ++ cjk_compat_variants l) by reflexivity.
  induction s as [|c t IH]; intros n h.
  - cbn. destruct n; [|reflexivity]. symmetry. exact (CC []).
  - rewrite CS. cbn [isolate_go]. destruct (cjk_shape c) as [E|(b & v & E & H1 & H2 & H3)].
    + rewrite E. cbn [app isolate_go]. destruct (_ || _); rewrite ?CC, CS, E, IH; reflexivity.
    + assert (AC : is_assigned c = true) by (destruct (is_assigned c) eqn:EA; [reflexivity|apply cjk_unassigned in EA; rewrite EA in E; discriminate]).
      assert (AB : is_assigned b = true) by (apply (cjk_assigned c); [exact AC|rewrite E; now left]).
      assert (AV : is_assigned v = true) by (apply (cjk_assigned c); [exact AC|rewrite E; right; now left]).
      rewrite E, AC. cbn [app isolate_go]. rewrite AB, AV. apply N.eqb_neq in H1, H2, H3. rewrite H1, H2, H3.
      destruct n; cbn [negb andb orb]; rewrite ?CC, CS, E, IH; reflexivity.
Qed.

(** * The documented isolation *)
Definition tail_form (t : list N) : list N :=
  match t with d :: _ => if d =? 0x34F then isolated_form false t else 0x34F :: isolated_form true t | [] => [0x34F] end.
Lemma form_cons : forall h c t, isolated_form h (c :: t) = if is_assigned c then c :: isolated_form (c =? 0x34F) t else (if h then [] else [0x34F]) ++ c :: tail_form t.
Proof. reflexivity. Qed.
Lemma iso_form : forall s, (forall h, unguarded h s = true -> isolate_go false h s = isolated_form h s)
  /\ (unguarded false s = true -> isolate_go true false s = tail_form s).
Proof.
  induction s as [|c t [IH1 IH2]]; [split; reflexivity|]. split.
  - intros h U. cbn [unguarded] in U. apply andb_prop in U. destruct U as [U1 U2]. cbn [isolate_go]. rewrite form_cons.
    destruct (is_assigned c) eqn:EA; cbn [negb andb orb].
    + f_equal. now apply IH1.
    + destruct h; [discriminate|]. cbn [negb app]. rewrite IH2; [reflexivity|]. rewrite (unassigned_not_CGJ _ EA) in U2. exact U2.
  - intro U. cbn [unguarded] in U. apply andb_prop in U. destruct U as [_ U]. cbn [isolate_go tail_form]. rewrite !form_cons. change 0x34F with CGJ.
    destruct (c =? CGJ) eqn:EC; cbn [negb andb orb].
    + apply N.eqb_eq in EC. subst c. rewrite assigned_CGJ. cbn [negb andb orb]. f_equal. now apply IH1.
    + destruct (is_assigned c) eqn:EA; cbn [negb app]; do 2 f_equal; auto.
Qed.
Lemma iso_documented : forall s, unguarded_text s -> isolate_unassigned s = isolated_form false s.
Proof. intros s H. apply iso_form. apply unguarded_spec; [discriminate|exact H]. Qed.

(** * Rows *)
Definition doc1 (c : N) : list N := cjk1 (sing c).
Transparent ccc cd kd compose qc_nfc is_public_assigned cjk_variant.
Lemma chk_doc_rep : ranges_all (fun c => odd_row c || (c =? 0xC) || (c =? 0xD) || (c =? 0x1B) || list_eqb (doc_rep c) (flat_map doc1 (replace c))) doc_ranges = true.
Proof. vm_compute. reflexivity. Qed.
Lemma chk_sing_doc : forallb (fun c => in_ranges c doc_ranges) [0x2126; 0x212A; 0x212B] = true.
Proof. vm_compute. reflexivity. Qed.
Lemma doc1_LF : doc1 LF = [LF]. Proof. reflexivity. Qed.
Lemma doc1_SP : doc1 SP = [SP]. Proof. reflexivity. Qed.
Global Opaque ccc cd kd compose qc_nfc is_public_assigned cjk_variant.
Lemma doc_rep_replace : forall c, odd_row c = false -> c <> 0xC -> c <> 0xD -> c <> 0x1B -> doc_rep c = flat_map doc1 (replace c).
Proof.
  intros c H0 H1 H2 H3. destruct (in_ranges c doc_ranges) eqn:E.
  - apply (ranges_all_spec _ _ _ chk_doc_rep) in E. rewrite H0 in E. apply list_eqb_eq. lia.
  - pose proof E as A. apply doc_lookup_ranges in A. unfold doc_rep. rewrite A. apply allowed_clean in A. rewrite clean_replace by exact A. cbn [flat_map].
    unfold doc1. assert (S : sing c = c).
    { pose proof chk_sing_doc as K. cbn [forallb] in K. unfold sing. repeat match goal with |- context [c =? ?x] => destruct (N.eqb_spec c x); [subst c; rewrite E in K; cbn in K; rewrite ?andb_false_r in K; discriminate|] end. reflexivity. }
    rewrite S, clean_cjk by exact A. reflexivity.
Qed.

(** the same cut with other replacements *)
Lemma replaced_map : forall can rep rep' (f : N -> list N) s rs, f LF = [LF] -> f SP = [SP] ->
  (forall c, In c s -> c <> 0xC -> c <> 0xD -> c <> 0x1B -> rep' c = flat_map f (rep c)) ->
  replaced can rep s rs -> replaced can rep' s (map (flat_map f) rs).
Proof.
  intros can rep rep' f s rs HL HS HR H. induction H as [|m r rest rs R L T IH]; [constructor|].
  assert (HM : forall c, In c m -> c <> 0xC -> c <> 0xD -> c <> 0x1B -> rep' c = flat_map f (rep c)) by (intros c Hc; apply HR, in_or_app; now left).
  cbn [map]. constructor.
  - assert (EL : flat_map f [0xA] = [0xA]) by (cbn; change 10 with LF; now rewrite HL). assert (ES : flat_map f [0x20] = [0x20]) by (cbn; change 32 with SP; now rewrite HS).
    destruct R; cbn [flat_map]; rewrite ?EL, ?ES; try (constructor; assumption).
    all: try (change (f 0xA ++ []) with (flat_map f [0xA]); rewrite EL; constructor; assumption).
    all: try (change (f 0x20 ++ []) with (flat_map f [0x20]); rewrite ES; constructor; assumption).
    rewrite <- HM; auto; [now constructor|now left].
  - intros m' r' rest' R' E. assert (exists r'', row can rep m' r'') as [r'' R''] by (destruct R'; eexists; (constructor; eassumption) || constructor).
    eapply L; eauto.
  - apply IH. intros c Hc. apply HR, in_or_app. now right.
Qed.

Transparent ccc cd kd compose qc_nfc is_public_assigned cjk_variant.
Lemma chk_cjk_ends : tall (fun (c : N) (d : N * N) => is_basic_text_start c && is_basic_text_start (fst d) && is_basic_text_end c && is_basic_text_end (snd d)) trie_cjk = true.
Proof. vm_compute. reflexivity. Qed.
Lemma cjk_ends : forall c, cjk1 c = [c] \/ exists b v, cjk1 c = [b; v] /\ is_basic_text_start c = true /\ is_basic_text_start b = true /\ is_basic_text_end c = true /\ is_basic_text_end v = true.
Proof.
  intro c. unfold cjk1. destruct (c <=? 127); [now left|]. unfold cjk_variant. destruct (nfind c trie_cjk) as [[b v]|] eqn:EC; [|now left].
  right. exists b, v. split; [reflexivity|]. apply (tall_spec _ _ _ _ _ chk_cjk_ends) in EC. cbn [fst snd] in EC.
  apply andb_prop in EC. destruct EC as [EC E4]. apply andb_prop in EC. destruct EC as [EC E3]. apply andb_prop in EC. destruct EC as [E1 E2]. auto.
Qed.
Lemma sing_start : forall c, is_basic_text_start (sing c) = is_basic_text_start c.
Proof. intro c. destruct (sing_cases c) as [E|[E|[E|E]]]; [now rewrite E|injection E as E ->; rewrite E; vm_compute; reflexivity ..]. Qed.
Lemma sing_end : forall c, is_basic_text_end (sing c) = is_basic_text_end c.
Proof. intro c. destruct (sing_cases c) as [E|[E|[E|E]]]; [now rewrite E|injection E as E ->; rewrite E; vm_compute; reflexivity ..]. Qed.
Lemma doc1_CGJ : doc1 CGJ = [CGJ]. Proof. reflexivity. Qed.
Global Opaque ccc cd kd compose qc_nfc is_public_assigned cjk_variant.

Lemma guard_start_doc : forall X, guard_start (flat_map doc1 X) = flat_map doc1 (guard_start X).
Proof.
  intros [|x X]; [reflexivity|]. cbn [flat_map guard_start].
  assert (H : guard_start (doc1 x ++ flat_map doc1 X) = if is_basic_text_start x then doc1 x ++ flat_map doc1 X else CGJ :: doc1 x ++ flat_map doc1 X).
  { unfold doc1 at 1 3 5. rewrite <- sing_start. destruct (cjk_ends (sing x)) as [->|(b & v & -> & H1 & H2 & _)]; cbn [app guard_start]; [reflexivity|now rewrite H1, H2]. }
  rewrite H. destruct (is_basic_text_start x); [reflexivity|]. cbn [flat_map]. change 0x34F with CGJ. now rewrite doc1_CGJ.
Qed.
Lemma guard_end_doc : forall X, guard_end (flat_map doc1 X) = flat_map doc1 (guard_end X).
Proof.
  intro X. destruct X as [|x X _] using rev_ind; [reflexivity|]. unfold guard_end. rewrite flat_map_app. cbn [flat_map]. rewrite app_nil_r.
  rewrite !last_opt_snoc.
  assert (H : last_opt (flat_map doc1 X ++ doc1 x) <> None /\ forall y, last_opt (flat_map doc1 X ++ doc1 x) = Some y -> is_basic_text_end y = is_basic_text_end x).
  { unfold doc1 at 2 4. rewrite <- (sing_end x). destruct (cjk_ends (sing x)) as [->|(b & v & -> & _ & _ & H3 & H4)].
    - rewrite last_opt_snoc. split; [discriminate|]. intros y E. now injection E as <-.
    - change [b; v] with ([b] ++ [v]). rewrite app_assoc, last_opt_snoc. split; [discriminate|]. intros y E. injection E as <-. congruence. }
  destruct H as [H1 H2]. destruct (last_opt (flat_map doc1 X ++ doc1 x)) as [y|]; [|congruence]. rewrite (H2 y eq_refl).
  destruct (is_basic_text_end x); rewrite !flat_map_app; cbn [flat_map]; rewrite ?doc1_CGJ, ?app_nil_r; reflexivity.
Qed.

Lemma doc_unguarded : forall X, unguarded_text (flat_map doc1 X) -> unguarded_text X.
Proof.
  intros X U a c b E. destruct (is_assigned c) eqn:EA; [reflexivity|]. rewrite <- EA. subst X. rewrite flat_map_app in U. cbn [flat_map] in U.
  change 0x34F with CGJ in U. rewrite doc1_CGJ in U. assert (EC : doc1 c = [c]).
  { unfold doc1. assert (S : sing c = c) by (destruct (sing_cases c) as [S|[S|[S|S]]]; [exact S|injection S as _ S; subst c; vm_compute in EA; discriminate ..]).
    rewrite S. now apply cjk_unassigned. }
  rewrite EC in U. exact (U (flat_map doc1 a) c (flat_map doc1 b) eq_refl).
Qed.
Lemma doc_pipeline : forall X, unguarded_text (flat_map doc1 X) -> nfc (stream_safe (isolated_form false (flat_map doc1 X))) = pipeline X.
Proof.
  intros X U. rewrite <- (iso_documented _ U). rewrite <- (pipeline_sing X). unfold pipeline.
  assert (E : flat_map doc1 X = cjk_compat_variants (map sing X)).
  { unfold cjk_compat_variants. clear U. induction X as [|x X IH]; [reflexivity|]. cbn. rewrite IH. reflexivity. }
  rewrite E. unfold isolate_unassigned. now rewrite iso_cjk.
Qed.
Lemma doc_last_nl : forall rs, needs_newline (map (flat_map doc1) rs) = needs_newline rs.
Proof.
  intro rs. unfold needs_newline, last_nl. destruct rs as [|r rs _] using rev_ind; [reflexivity|]. rewrite map_app. cbn [map]. rewrite !last_opt_snoc. f_equal.
  assert (K : forall x, length (doc1 x) = 1%nat \/ length (doc1 x) = 2%nat) by (intro x; unfold doc1; destruct (cjk_shape (sing x)) as [->|(b & v & -> & _)]; auto).
  destruct r as [|x [|y r]].
  - reflexivity.
  - cbn [flat_map]. rewrite app_nil_r. unfold doc1. destruct (cjk_ends (sing x)) as [->|(b & v & E & _)].
    + cbn. destruct (N.eqb_spec (sing x) LF) as [E|E]; destruct (N.eqb_spec x LF) as [F|F]; auto; apply N.eqb_eq in E || apply N.eqb_neq in E; rewrite sing_LF in E; lia.
    + rewrite E. cbn. destruct (N.eqb_spec x LF) as [F|F]; [|reflexivity]. subst x. discriminate E.
  - cbn [flat_map]. destruct (K x) as [E|E], (K y) as [F|F]; destruct (doc1 x) as [|? [|? [|? ?]]]; try discriminate E; destruct (doc1 y) as [|? [|? [|? ?]]]; try discriminate F; reflexivity.
Qed.

(** * The documented replacements *)
Theorem converted_documented : forall script rs, no_push script -> bom_visible script ->
  let text := without_bom (stream_text script) in
  ~ In 0x18 text -> Forall (fun c => odd_row c = false) text ->
  replaced false doc_rep text rs -> unguarded_text (concat rs) ->
  converted_stream false false script = nfc (stream_safe (isolated_form false (guard_end (guard_start (concat rs)) ++ (if needs_newline rs then [0xA] else [])))).
Proof.
  intros script rs NP BV text NC NO HR U. destruct (replaced_total false false text) as [rc HC].
  assert (E : rs = map (flat_map doc1) rc).
  { eapply replaced_det; [|eapply (replaced_map true (char_rep false false) doc_rep doc1); [exact doc1_LF|exact doc1_SP| |exact HC]].
    - apply replaced_can; assumption.
    - intros c Hc H1 H2 H3. rewrite Forall_forall in NO. apply doc_rep_replace; auto. }
  assert (EC : concat rs = flat_map doc1 (concat rc)) by (rewrite E; clear; induction rc as [|r rc IH]; [reflexivity|]; cbn; now rewrite IH, flat_map_app).
  rewrite EC in U |- *. pose proof (doc_unguarded _ U) as UC.
  rewrite (converted_spec false false script rc NP BV HC UC). unfold stream_conversion.
  assert (EN : needs_newline rs = needs_newline rc) by (rewrite E; apply doc_last_nl). rewrite EN.
  set (X := guard_end (guard_start (concat rc)) ++ (if needs_newline rc then [LF] else [])).
  assert (EX : guard_end (guard_start (flat_map doc1 (concat rc))) ++ (if needs_newline rc then [0xA] else []) = flat_map doc1 X).
  { unfold X. rewrite flat_map_app, guard_start_doc, guard_end_doc. f_equal. destruct (needs_newline rc); [cbn [flat_map]; now rewrite doc1_LF|reflexivity]. }
  rewrite EX. symmetry. apply doc_pipeline. rewrite <- EX. now apply unguarded_guarded.
Qed.
Lemma replaced_can_iff : forall rep s rs, ~ In 0x18 s -> replaced true rep s rs -> replaced false rep s rs.
Proof.
  intros rep s rs H HR. induction HR as [|m r rest rs HR HL HT IH]; [constructor|].
  assert (HM : ~ In 0x18 m) by (intro K; apply H, in_or_app; now left).
  constructor.
  - now apply row_can.
  - intros m' r' rest' HR' E. apply (HL m' r' rest'); [|exact E]. apply row_can; [|exact HR']. intro K. apply H. rewrite E. apply in_or_app. now left.
  - apply IH. intro K. apply H, in_or_app. now right.
Qed.
Lemma doc_cut_exists : forall text, ~ In 0x18 text -> Forall (fun c => odd_row c = false) text -> exists rs, replaced false doc_rep text rs.
Proof.
  intros text NC NO. destruct (replaced_total false false text) as [rc HC]. exists (map (flat_map doc1) rc). apply replaced_can_iff; [exact NC|].
  eapply (replaced_map true (char_rep false false) doc_rep doc1); [exact doc1_LF|exact doc1_SP| |exact HC].
  intros c Hc H1 H2 H3. rewrite Forall_forall in NO. apply doc_rep_replace; auto.
Qed.

(** * The whole documented conversion *)
Transparent ccc cd kd compose qc_nfc is_public_assigned cjk_variant.
Lemma chk_doc_start : ranges_all (fun c => (c =? 0xC) || (c =? 0xD) || (c =? 0x1B) || (c =? 0x17B4) || (c =? 0x17B5) ||
  match doc_rep c with x :: _ => Bool.eqb (is_basic_text_start x) (is_basic_text_start c) | [] => false end) doc_ranges = true.
Proof. vm_compute. reflexivity. Qed.
Lemma doc_rep_CGJ : doc_rep CGJ = [CGJ]. Proof. vm_compute. reflexivity. Qed.
Lemma doc_rep_LF : doc_rep LF = [LF]. Proof. vm_compute. reflexivity. Qed.
Lemma start_CR : is_basic_text_start 0xD = true. Proof. vm_compute. reflexivity. Qed.
Lemma start_FF : is_basic_text_start 0xC = true. Proof. vm_compute. reflexivity. Qed.
Lemma end_CR : is_basic_text_end 0xD = true. Proof. vm_compute. reflexivity. Qed.
Global Opaque ccc cd kd compose qc_nfc is_public_assigned cjk_variant.
Lemma doc_rep_start : forall c, c <> 0xC -> c <> 0xD -> c <> 0x1B -> c <> 0x17B4 -> c <> 0x17B5 ->
  exists x r, doc_rep c = x :: r /\ is_basic_text_start x = is_basic_text_start c.
Proof.
  intros c H1 H2 H3 H4 H5. destruct (in_ranges c doc_ranges) eqn:E.
  - apply (ranges_all_spec _ _ _ chk_doc_start) in E. destruct (doc_rep c) as [|x r]; [lia|]. exists x, r. split; [reflexivity|].
    apply eqb_prop. lia.
  - apply doc_lookup_ranges in E. unfold doc_rep. rewrite E. eauto.
Qed.

Lemma run_head : forall x f c t, run_of x f -> c :: t = f -> c = x.
Proof. intros x f c t [_ F] <-. now inversion F. Qed.
Lemma run_head_app : forall x f r c t, run_of x f -> c :: t = f ++ r -> c = x.
Proof. intros x [|y f] r c t [N F] E; [congruence|]. injection E as -> _. now inversion F. Qed.
(** the first replacement, when the text does not begin with an escape *)
Lemma first_rep : forall can c t rs, replaced can doc_rep (c :: t) rs -> c <> 0x1B -> c <> 0x17B4 -> c <> 0x17B5 ->
  exists x u, concat rs = x :: u /\ is_basic_text_start x = is_basic_text_start c.
Proof.
  intros can c t rs H N1 N2 N3. inversion H as [|m r rest rs' R L T E1 E2]. clear H L T. subst rs. cbn [concat].
  assert (HR : exists x u, r = x :: u /\ is_basic_text_start x = is_basic_text_start c).
  { symmetry in E1. destruct R; cbn [app] in E1; rewrite <- ?app_assoc in E1;
    try (apply (run_head_app 0x1B) in E1; [congruence|assumption]);
    try (injection E1 as E1 _; subst c; exists 0xA, []; split; [reflexivity|rewrite start_CR; exact start_LF]);
    try (apply (run_head_app 0xC) in E1; [|assumption]; subst c; do 2 eexists; split; [reflexivity|rewrite start_FF; exact start_LF || exact start_SP]).
    injection E1 as -> _. apply doc_rep_start; assumption. }
  destruct HR as (x & u & -> & HS). exists x, (u ++ concat rs'). split; [reflexivity|exact HS].
Qed.
Lemma cut_CGJ : forall can t rs0, replaced can doc_rep t rs0 -> replaced can doc_rep (CGJ :: t) ([CGJ] :: rs0).
Proof.
  intros can t rs0 H. change (CGJ :: t) with ([CGJ] ++ t). constructor; [|intros m r rest R E|exact H].
  - rewrite <- doc_rep_CGJ. constructor; discriminate.
  - cbn [length]. cbn [app] in E. destruct R; cbn [app] in E; rewrite <- ?app_assoc in E;
      try (apply (run_head_app 0x1B) in E; [discriminate|assumption]); try (apply (run_head_app 0xC) in E; [discriminate|assumption]); try discriminate E; cbn; lia.
Qed.

Theorem reader_documented : forall script rs out, no_push script -> bom_visible script ->
  let text := without_bom (stream_text script) in
  documented_from (stream_text script) rs out ->
  ~ In 0x18 text -> Forall (fun c => odd_row c = false) text -> unguarded_text (concat rs) ->
  (forall c, last_opt text = Some c -> c = 0xA \/ c = 0xD) -> (text = [] \/ last_opt rs = Some [0xA]) ->
  (forall c t, text = c :: t -> c <> 0x1B /\ c <> 0x17B4 /\ c <> 0x17B5) ->
  converted_stream false false script = out.
Proof.
  intros script rs out NP BV text [HR ->] NC NO U HL HN HF. fold text in HR.
  assert (EW : with_newline text = text).
  { unfold with_newline. destruct (last_opt text) as [c|]; [|reflexivity]. destruct (HL c eq_refl) as [-> | ->]; reflexivity. }
  rewrite EW in HR. assert (EG : guard_end (guard_start text) = guard_start text).
  { unfold guard_end. assert (LG : last_opt (guard_start text) = last_opt text).
    { unfold guard_start. destruct text as [|c t]; [reflexivity|]. destruct (is_basic_text_start c); reflexivity. }
    rewrite LG. destruct (last_opt text) as [c|]; [|reflexivity]. destruct (HL c eq_refl) as [-> | ->]; [change 10 with LF; now rewrite end_LF|now rewrite end_CR]. }
  rewrite EG in HR. clear EG EW HL.
  (* the end *)
  assert (FIN : forall rs0, last_opt rs0 = Some [0xA] -> guard_end (concat rs0) = concat rs0 /\ needs_newline rs0 = false).
  { intros rs0 E. destruct rs0 as [|r rs0 _] using rev_ind; [discriminate|]. rewrite last_opt_snoc in E. injection E as ->.
    split; [|unfold needs_newline, last_nl; now rewrite last_opt_snoc]. rewrite concat_app. cbn [concat app]. unfold guard_end. rewrite last_opt_snoc. change 10 with LF. now rewrite end_LF. }
  destruct HN as [HN|HN].
  - unfold text in *. rewrite HN in HR. cbn [guard_start] in HR. inversion HR as [E|m r rest rs' R _ _ E1]; [|apply app_eq_nil in E1; destruct E1 as [-> _]; apply row_nonnil in R; congruence].
    assert (EC : concat rs = []) by now subst. rewrite (converted_documented script [] NP BV NC NO); [now subst|rewrite HN; constructor|intros a c b Q; destruct a; discriminate].
  - assert (exists c t, text = c :: t) as (c & t & ET).
    { destruct text as [|c t] eqn:E; [|eauto]. cbn [guard_start] in HR. inversion HR as [E0|m r rest rs' R _ _ E1]; [subst; discriminate|apply app_eq_nil in E1; destruct E1 as [-> _]; apply row_nonnil in R; congruence]. }
    destruct (HF c t ET) as (F1 & F2 & F3). rewrite ET in HR. cbn [guard_start] in HR. destruct (is_basic_text_start c) eqn:ES.
    + rewrite <- ET in HR. rewrite (converted_documented script rs NP BV NC NO HR U).
      rewrite ET in HR. destruct (first_rep _ _ _ _ HR F1 F2 F3) as (x & u & EX & SX).
      assert (G : guard_start (concat rs) = concat rs) by (rewrite EX; cbn; now rewrite SX, ES). rewrite G. destruct (FIN rs HN) as [-> ->]. now rewrite app_nil_r.
    + destruct (doc_cut_exists _ NC NO) as [rs0 H0]. fold text in H0. rewrite ET in H0. pose proof (cut_CGJ _ _ _ H0) as H1.
      change 847 with CGJ in HR. assert (ER : rs = [CGJ] :: rs0) by (eapply replaced_det; eauto). subst rs.
      assert (L0 : last_opt rs0 = Some [0xA]). { destruct rs0 as [|r rs0]; [discriminate|]. exact HN. }
      assert (U0 : unguarded_text (concat rs0)). { intros a y b E. apply (U (CGJ :: a) y b). cbn. now rewrite E. }
      destruct (first_rep _ _ _ _ H0 F1 F2 F3) as (x & u & EX & SX). rewrite <- ET in H0.
      rewrite (converted_documented script rs0 NP BV NC NO H0 U0).
      assert (G : guard_start (concat rs0) = CGJ :: concat rs0) by (rewrite EX; cbn; now rewrite SX, ES). rewrite G.
      destruct (FIN rs0 L0) as [GE ->]. rewrite app_nil_r. do 3 f_equal.
      change (CGJ :: concat rs0) with (concat ([CGJ] :: rs0)). apply FIN. exact HN.
Qed.

Lemma final_newline_eq : forall rs, final_newline rs = if needs_newline rs then [LF] else [].
Proof.
  intro rs. unfold final_newline, needs_newline, last_nl. destruct (last_opt rs) as [r|]; [|reflexivity].
  destruct r as [|x [|y r]]; [reflexivity| |]; cbn [list_eqb is_LF]; rewrite ?andb_true_r, ?andb_false_r; [|reflexivity]. change LF with 10. now destruct (x =? 10).
Qed.
