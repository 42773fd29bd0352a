(** Reading lines. *)
From Coq Require Import NArith Arith List Bool Lia ZifyBool ZifyNat ZifyN.
From Verif Require Import Base Ucd UcdTables Norm Chars TextTables TextUtils UcdFacts NormFacts CharFacts DocTable SpecText TextFacts PipelineFacts DocFacts IsoFacts
  Utf8 Utf8Facts Input Output ReadFacts ReadInv ReadSession SpecRead ReadChunk SpecEscape EscapeFacts EscapeRun ReadProps KeepFacts ReadPieces SpecConv ConvFacts
  SpecWrite WriteFacts WriteProps Strings StringFacts ConcatFacts EdgeFacts SpecString StringProps LossyProps Lines.
Import ListNotations.
Local Open Scope N_scope.
Arguments N.add : simpl never.
Arguments N.leb : simpl never.
Arguments N.ltb : simpl never.
Arguments N.eqb : simpl never.
Local Opaque pipeline.

(** * Lines of bytes *)
(** The bytes of a terminated source: lines without 0xA, each followed by 0xA. *)
Definition lines_of (ps : list (list N)) : list N := concat (map (fun p => p ++ [0xA]) ps).

Lemma until_lf_line : forall p t, ~ In LF p -> until_lf (p ++ LF :: t) = (p ++ [LF], t).
Proof.
  induction p as [|b p IH]; intros t H; cbn [app until_lf]; [now rewrite N.eqb_refl|].
  replace (b =? LF) with false by (symmetry; apply N.eqb_neq; intros ->; apply H; now left). rewrite IH; [reflexivity|]. intro K. apply H. now right.
Qed.
Lemma until_lf_cases : forall src, (~ In LF src /\ until_lf src = (src, [])) \/ exists p t, src = p ++ LF :: t /\ ~ In LF p /\ until_lf src = (p ++ [LF], t).
Proof.
  induction src as [|b src IH]; [left; split; [intros []|reflexivity]|]. cbn [until_lf]. destruct (b =? LF) eqn:E.
  - right. apply N.eqb_eq in E. subst b. exists [], src. split; [reflexivity|]. split; [intros []|reflexivity].
  - apply N.eqb_neq in E. destruct IH as [[H1 H2]|(p & t & -> & H1 & H2)].
    + left. rewrite H2. split; [intros [K|K]; auto|reflexivity].
    + right. rewrite H2. exists (b :: p), t. split; [reflexivity|]. split; [intros [K|K]; auto|reflexivity].
Qed.
(** Every source is lines and an unterminated rest. *)
Lemma lines_exist : forall n src, (length src <= n)%nat -> exists ps q, src = lines_of ps ++ q /\ Forall (fun p => ~ In LF p) ps /\ ~ In LF q.
Proof.
  induction n as [|n IH]; intros src L.
  - destruct src; [|cbn in L; lia]. exists [], []. split; [reflexivity|]. split; [constructor|intros []].
  - destruct (until_lf_cases src) as [[H _]|(p & t & -> & H & _)]; [exists [], src; auto|].
    destruct (IH t) as (ps & q & -> & F & Q); [rewrite app_length in L; cbn in L; lia|]. exists (p :: ps), q. split; [|auto].
    unfold lines_of. cbn [map concat]. now rewrite <- !app_assoc.
Qed.

(** * Encoded lines *)
Lemma encode_LF : encode LF = [LF]. Proof. reflexivity. Qed.
Lemma encode_snoc_LF : forall s, encode_all (s ++ [LF]) = encode_all s ++ [LF].
Proof. intro s. rewrite encode_all_app. reflexivity. Qed.
Lemma encode_not_LF : forall c, c <> LF -> is_scalar c = true -> ~ In LF (encode c).
Proof.
  intros c H S K. destruct (encode_shape c S) as (b & t & E & HB & HT). rewrite E in K. destruct K as [K|K].
  - subst b. apply H. assert (D : decode1 (encode c ++ []) = Some (c, [])) by (now apply decode1_encode). rewrite E in D. cbn [app decode1] in D. cbv in D. injection D as D _. symmetry. exact D.
  - rewrite Forall_forall in HT. apply HT in K. discriminate K.
Qed.
Lemma encode_in_LF : forall s, scalars s -> In LF (encode_all s) <-> In LF s.
Proof.
  intros s H. unfold encode_all. rewrite in_flat_map. split.
  - intros (c & I & K). destruct (N.eq_dec c LF) as [->|NE]; [exact I|]. exfalso. refine (encode_not_LF c NE _ K). now apply (proj1 (Forall_forall _ _) H).
  - intro I. exists LF. split; [exact I|]. now left.
Qed.
Lemma decode_snoc_LF : forall p, (exists s, scalars s /\ p = encode_all s /\ decode (p ++ [LF]) = (s ++ [LF], [])) \/
  (~ (exists s, scalars s /\ p = encode_all s) /\ exists s b r, decode (p ++ [LF]) = (s, b :: r)).
Proof.
  intro p. destruct (decode (p ++ [LF])) as [s r] eqn:E. pose proof E as E0. apply decode_spec in E. destruct E as (S & EQ & _).
  destruct r as [|b r].
  - left. rewrite app_nil_r in EQ. destruct s as [|c s _] using rev_ind; [destruct p; discriminate|].
    apply Forall_app in S. destruct S as [S SC]. inversion SC as [|? ? SC' _]; subst. destruct (N.eq_dec c LF) as [->|NE].
    + rewrite encode_snoc_LF in EQ. apply app_inj_tail in EQ. destruct EQ as [-> _]. exists s. auto.
    + exfalso. apply (encode_not_LF c NE SC'). rewrite encode_all_app in EQ. unfold encode_all at 2 in EQ. cbn [flat_map] in EQ. rewrite app_nil_r in EQ.
      destruct (encode c) as [|y l _] eqn:EE using rev_ind; [|rewrite app_assoc in EQ; apply app_inj_tail in EQ; destruct EQ as [_ <-]; apply in_or_app; right; now left].
      pose proof (encode_length c) as L. rewrite EE in L. destruct (utf8_len_pos c) as [L1 _]. cbn in L. lia.
  - right. split; [|now exists s, b, r]. intros (t & T & ->). rewrite <- encode_snoc_LF, decode_encode_all in E0; [discriminate|].
    apply Forall_app. split; [exact T|]. now constructor.
Qed.

(** * What is yielded for a line *)
Lemma ok_snoc : forall l, string_ok l -> string_ok (l ++ [LF]).
Proof.
  intros l (H & S & E). split; [|split].
  - apply substr_spec. apply substr_spec in H. rewrite substr_ok_iff in *. destruct H as [H1 H2]. split.
    + apply Forall_app. split; [exact H1|]. constructor; [|constructor]. vm_compute. reflexivity.
    + apply nfc_ss_split; [exact boring_LF|exact H2|]. apply (nfc_ss_app l []). now rewrite app_nil_r.
  - intros c t EQ. destruct l as [|x l]; [injection EQ as <- _; reflexivity|]. injection EQ as <- _. now apply (S x l).
  - intros t c EQ. apply app_inj_tail in EQ. destruct EQ as [_ <-]. reflexivity.
Qed.
Lemma ok_no_CR : forall l, string_ok l -> ends_with CR l = false.
Proof.
  intros l ((_ & _ & A) & _). unfold ends_with. destruct (last_opt l) as [c|] eqn:E; [|reflexivity]. apply last_opt_some in E. destruct E as [t ->].
  apply Forall_app in A. destruct A as [_ A]. inversion A as [|? ? AC _]; subst. apply N.eqb_neq. intros ->. discriminate AC.
Qed.
Lemma ends_snoc : forall l c, ends_with c (l ++ [c]) = true.
Proof. intros l c. unfold ends_with. rewrite last_opt_snoc. apply N.eqb_refl. Qed.
(** the item for the bytes [p] of a line *)
Definition item_for (p : list N) (it : item) : Prop :=
  match it with
  | Line l => scalars l /\ p = encode_all l /\ string_ok l
  | LineErr => ~ exists l, scalars l /\ p = encode_all l /\ string_ok l
  end.
Lemma next_line_spec : forall debug p t, ~ In LF p -> exists it, next_line debug (p ++ LF :: t) = Some (Some it, t) /\ item_for p it.
Proof.
  intros debug p t H. unfold next_line, read_text_line, read_line. rewrite until_lf_line by exact H.
  destruct (decode_snoc_LF p) as [(s & SC & EP & ED)|(NE & s & b & r & ED)]; rewrite ED; cbn [app].
  2:{ exists LineErr. split; [reflexivity|]. intros (l & L1 & L2 & _). apply NE. eauto. }
  destruct (is_basic_text (s ++ [LF])) eqn:EB.
  - replace (length (p ++ [LF])) with (S (length p)) by (rewrite app_length; cbn; lia). rewrite ends_snoc. cbn [negb]. rewrite andb_false_r, removelast_snoc.
    apply basic_text_spec in EB. assert (NC : ends_with CR s = false).
    { destruct EB as ((_ & _ & A) & _). apply Forall_app in A. destruct A as [A _]. unfold ends_with. destruct (last_opt s) as [c|] eqn:E; [|reflexivity].
      apply last_opt_some in E. destruct E as [u ->]. apply Forall_app in A. destruct A as [_ A]. inversion A as [|? ? AC _]; subst. apply N.eqb_neq. intros ->. discriminate AC. }
    rewrite NC, andb_false_r. destruct (opt_all is_basic_text_end (last_opt s)) eqn:EE.
    + exists (Line s). split; [reflexivity|]. split; [exact SC|]. split; [exact EP|]. apply (string_ok_prefix _ [LF]); [exact EB|]. now apply ends_ok_iff.
    + exists LineErr. split; [reflexivity|]. intros (l & L1 & L2 & (_ & _ & L3)). rewrite EP in L2. apply encode_all_inj in L2; auto. subst l. apply ends_ok_iff in L3. congruence.
  - exists LineErr. split; [reflexivity|]. intros (l & L1 & L2 & L3). rewrite EP in L2. apply encode_all_inj in L2; auto. subst l. apply ok_snoc, basic_text_spec in L3. congruence.
Qed.
Lemma next_line_nil : forall debug, next_line debug [] = Some (None, []).
Proof. reflexivity. Qed.

(** * All the items *)
Lemma all_items_lines : forall next (ok : list N -> item -> Prop), (forall p t, ~ In LF p -> exists it, next (p ++ LF :: t) = Some (Some it, t) /\ ok p it) ->
  next [] = Some (None, []) -> forall ps q f, Forall (fun p => ~ In LF p) ps -> (length (lines_of ps ++ q) <= f)%nat ->
  exists its, Forall2 ok ps its /\ (q = [] -> all_items next f (lines_of ps ++ q) = Some its) /\
    all_items next f (lines_of ps ++ q) = match all_items next (f - length ps) q with Some l => Some (its ++ l) | None => None end.
Proof.
  intros next ok HN H0. induction ps as [|p ps IH]; intros q f F L.
  - exists []. split; [constructor|]. cbn [lines_of map concat app length]. rewrite Nat.sub_0_r. split; [|now destruct (all_items next f q)].
    intros ->. destruct f; [reflexivity|]. cbn. now rewrite H0.
  - inversion F as [|? ? FP FS]; subst. unfold lines_of in *. cbn [map concat] in *. rewrite <- !app_assoc in *. cbn [app] in *.
    destruct f as [|f]; [rewrite !app_length in L; cbn in L; lia|]. destruct (HN p (concat (map (fun p => p ++ [0xA]) ps) ++ q) FP) as (it & E & OK).
    cbn [all_items]. change 0xA with LF in *. rewrite E. destruct (IH q f FS) as (its & F2 & A1 & A2).
    { rewrite app_length in *. cbn [length] in L. rewrite !app_length in *. lia. }
    exists (it :: its). split; [now constructor|]. split; [intro Q; now rewrite (A1 Q)|]. rewrite A2. cbn [length Nat.sub]. now destruct (all_items next (f - length ps) q).
Qed.
Theorem lines_spec : forall debug ps, Forall (fun p => ~ In 0xA p) ps ->
  exists its, text_lines debug (lines_of ps) = Some its /\ Forall2 item_for ps its.
Proof.
  intros debug ps F. destruct (all_items_lines (next_line debug) item_for (next_line_spec debug) (next_line_nil debug) ps [] (length (lines_of ps)) F) as (its & F2 & A & _).
  { rewrite app_nil_r. apply le_n. }
  exists its. specialize (A eq_refl). rewrite app_nil_r in A. auto.
Qed.

(** * A last line without a line end *)
Lemma decode_rest : forall q, (exists s, scalars s /\ q = encode_all s /\ decode q = (s, [])) \/ (~ (exists s, scalars s /\ q = encode_all s) /\ exists s b r, decode q = (s, b :: r)).
Proof.
  intro q. destruct (decode q) as [s r] eqn:E. pose proof E as E0. apply decode_spec in E. destruct E as (H & EQ & _). destruct r as [|b r].
  - left. rewrite app_nil_r in EQ. eauto.
  - right. split; [|now exists s, b, r]. intros (t & T & ->). rewrite decode_encode_all in E0 by exact T. discriminate.
Qed.
Lemma until_lf_rest : forall q, ~ In LF q -> until_lf q = (q, []).
Proof. intros q H. destruct (until_lf_cases q) as [[_ E]|(p & t & -> & _)]; [exact E|]. exfalso. apply H. apply in_or_app. right. now left. Qed.
Lemma not_ends : forall s, ~ In LF s -> ends_with LF s = false.
Proof.
  intros s H. unfold ends_with. destruct (last_opt s) as [c|] eqn:E; [|reflexivity]. apply last_opt_some in E. destruct E as [t ->]. apply N.eqb_neq. intros ->.
  apply H. apply in_or_app. right. now left.
Qed.
(** In a build with debug assertions a valid last line panics; in a release
    build its last character is lost. *)
Lemma next_rest : forall debug q, ~ In LF q -> q <> [] ->
  match next_line debug q with
  | None => debug = true /\ exists s, scalars s /\ q = encode_all s /\ string_ok s
  | Some (Some (Line l), t) => t = [] /\ debug = false /\ string_ok l /\ exists c, scalars (l ++ [c]) /\ q = encode_all (l ++ [c]) /\ string_ok (l ++ [c])
  | Some (Some LineErr, t) => t = [] /\ ~ exists s, scalars s /\ q = encode_all s /\ string_ok s /\ (debug = true \/ ends_ok (removelast s))
  | Some (None, _) => False
  end.
Proof.
  intros debug q H NE. unfold next_line, read_text_line, read_line. rewrite until_lf_rest by exact H.
  destruct (decode_rest q) as [(s & SC & EP & ED)|(NV & s & b & r & ED)]; rewrite ED; cbn [app].
  2:{ split; [reflexivity|]. intros (l & L1 & L2 & _). apply NV. eauto. }
  assert (INJ : forall l, scalars l -> q = encode_all l -> l = s) by (intros l L1 L2; rewrite EP in L2; symmetry; now apply encode_all_inj).
  destruct (is_basic_text s) eqn:EB.
  - destruct q as [|x q]; [contradiction|]. cbn [length]. apply basic_text_spec in EB.
    rewrite not_ends by (intro K; apply H; rewrite EP; now apply encode_in_LF). cbn [negb]. destruct debug; cbn [andb].
    + split; [reflexivity|]. exists s. auto.
    + destruct s as [|c l _] using rev_ind; [discriminate EP|]. rewrite removelast_snoc. destruct (opt_all is_basic_text_end (last_opt l)) eqn:EE.
      * split; [reflexivity|]. split; [reflexivity|]. split; [|exists c; auto]. apply (string_ok_prefix _ [c]); [exact EB|]. now apply ends_ok_iff.
      * split; [reflexivity|]. intros (s & L1 & L2 & L3 & [L4|L4]); [discriminate|]. rewrite (INJ s L1 L2), removelast_snoc in L4. apply ends_ok_iff in L4. congruence.
  - split; [reflexivity|]. intros (l & L1 & L2 & L3 & _). rewrite (INJ l L1 L2) in L3. apply basic_text_spec in L3. congruence.
Qed.
Lemma all_items_rest : forall debug q f, ~ In LF q -> (1 <= f)%nat -> q <> [] ->
  all_items (next_line debug) f q = match next_line debug q with Some (Some it, _) => Some [it] | _ => None end.
Proof.
  intros debug q f H F NE. destruct f as [|f]; [lia|]. cbn [all_items]. pose proof (next_rest debug q H NE) as K.
  destruct (next_line debug q) as [[[it|] t]|]; [|contradiction|reflexivity]. assert (t = []) as -> by (destruct it; tauto).
  assert (Z : all_items (next_line debug) f [] = Some []) by (destruct f; reflexivity). now rewrite Z.
Qed.
Theorem lines_general : forall debug ps q, Forall (fun p => ~ In LF p) ps -> ~ In LF q -> q <> [] ->
  exists its, Forall2 item_for ps its /\
    text_lines debug (lines_of ps ++ q) = match next_line debug q with Some (Some it, _) => Some (its ++ [it]) | _ => None end.
Proof.
  intros debug ps q F Q NE. destruct (all_items_lines (next_line debug) item_for (next_line_spec debug) (next_line_nil debug) ps q (length (lines_of ps ++ q)) F (le_n _)) as (its & F2 & _ & A).
  exists its. split; [exact F2|]. unfold text_lines. rewrite A, all_items_rest; auto.
  - now destruct (next_line debug q) as [[[it|] t]|].
  - assert (L : (length ps <= length (lines_of ps))%nat).
    { clear. unfold lines_of. induction ps as [|p ps IH]; [apply le_n|]. cbn [map concat length]. rewrite !app_length. cbn. lia. }
    rewrite app_length. destruct q; [contradiction|]. cbn [length]. lia.
Qed.
Lemma item_for_valid : forall ps its, Forall (fun p => ~ In LF p) ps -> Forall2 item_for ps its -> forall l, In (Line l) its -> string_ok l /\ ~ In LF l.
Proof.
  intros ps its F F2. induction F2 as [|p it ps its H F2 IH]; intros l K; [destruct K|]. inversion F as [|? ? FP FS]; subst. destruct K as [->|K]; [|now apply IH].
  destruct H as (H1 & -> & H3). split; [exact H3|]. intro X. apply FP. now apply encode_in_LF.
Qed.
(** Every line that is yielded is valid, and has no line end in it. *)
Theorem lines_valid : forall debug src its l, text_lines debug src = Some its -> In (Line l) its -> string_ok l /\ ~ In LF l.
Proof.
  intros debug src its l H K. destruct (lines_exist (length src) src (le_n _)) as (ps & q & -> & F & Q).
  destruct q as [|b q].
  - rewrite app_nil_r in H. destruct (lines_spec debug ps F) as (its' & E & F2). rewrite E in H. injection H as <-. exact (item_for_valid _ _ F F2 l K).
  - destruct (lines_general debug ps (b :: q) F Q) as (its' & F2 & E); [discriminate|]. rewrite E in H.
    assert (NE : b :: q <> []) by discriminate. pose proof (next_rest debug (b :: q) Q NE) as R.
    destruct (next_line debug (b :: q)) as [[[it|] t]|]; try discriminate. injection H as <-. apply in_app_or in K. destruct K as [K|[->|[]]]; [exact (item_for_valid _ _ F F2 l K)|].
    destruct R as (_ & _ & R & c & S & EQ & _). split; [exact R|]. intro X. apply Q. rewrite EQ. apply encode_in_LF; [exact S|]. apply in_or_app. now left.
Qed.
(** Nothing panics when the source ends with a line end. *)
Theorem lines_no_panic : forall debug src, line_terminated src -> text_lines debug src <> None.
Proof.
  intros debug src T. destruct (lines_exist (length src) src (le_n _)) as (ps & q & -> & F & Q). assert (q = []) as ->.
  { destruct q as [|b q _] using rev_ind; [reflexivity|]. exfalso. destruct T as [T|[t T]].
    - apply app_eq_nil in T. destruct T as [_ T]. now apply app_eq_nil in T.
    - rewrite app_assoc in T. apply app_inj_tail in T. destruct T as [_ ->]. apply Q. apply in_or_app. right. now left. }
  rewrite app_nil_r. destruct (lines_spec debug ps F) as (its & E & _). congruence.
Qed.
(** Lossless. *)
Theorem lines_roundtrip : forall debug ls, Forall (fun l => scalars l /\ string_ok l /\ ~ In LF l) ls ->
  text_lines debug (encode_all (concat (map (fun l => l ++ [0xA]) ls))) = Some (map Line ls).
Proof.
  intros debug ls F. assert (E : encode_all (concat (map (fun l => l ++ [0xA]) ls)) = lines_of (map encode_all ls)).
  { clear F. induction ls as [|l ls IH]; [reflexivity|]. unfold lines_of in *. cbn [map concat]. rewrite encode_all_app, IH. f_equal. apply encode_snoc_LF. }
  rewrite E. destruct (lines_spec debug (map encode_all ls)) as (its & -> & F2).
  { apply Forall_forall. intros p I. apply in_map_iff in I. destruct I as (l & <- & I). apply (proj1 (Forall_forall _ _) F) in I. destruct I as (S & _ & N). intro K. apply N. now apply encode_in_LF. }
  f_equal. clear E. revert its F2. induction ls as [|l ls IH]; intros its F2; inversion F2 as [|? it ? its' H F3]; subst; [reflexivity|]. inversion F as [|? ? (L1 & L2 & L3) FS]; subst.
  cbn [map]. f_equal; [|now apply IH]. destruct it as [l'|]; [|exfalso; apply H; eauto]. destruct H as (H1 & H2 & _). apply encode_all_inj in H2; auto. now subst.
Qed.
Theorem lines_lossless : forall debug src ls, text_lines debug src = Some (map Line ls) -> debug = true \/ line_terminated src ->
  src = encode_all (concat (map (fun l => l ++ [0xA]) ls)).
Proof.
  intros debug src ls H T. destruct (lines_exist (length src) src (le_n _)) as (ps & q & -> & F & Q). destruct q as [|b q].
  - rewrite app_nil_r in *. destruct (lines_spec debug ps F) as (its & E & F2). rewrite E in H. injection H as ->. clear E T Q F. revert ps F2.
    induction ls as [|l ls IH]; intros ps F2; inversion F2 as [|p ? ps' ? P F3]; subst; [reflexivity|]. unfold lines_of in *. cbn [map concat]. rewrite (IH _ F3), encode_all_app. f_equal.
    destruct P as (_ & -> & _). symmetry. apply encode_snoc_LF.
  - exfalso. destruct T as [->|T].
    + destruct (lines_general true ps (b :: q) F Q) as (its' & F2 & E); [discriminate|]. rewrite E in H.
      assert (NE : b :: q <> []) by discriminate. pose proof (next_rest true (b :: q) Q NE) as R.
      destruct (next_line true (b :: q)) as [[[it|] t]|]; try discriminate. injection H as H. destruct it as [l|]; [now destruct R as (_ & R & _)|].
      assert (K : In LineErr (map Line ls)) by (rewrite <- H; apply in_or_app; right; now left). apply in_map_iff in K. destruct K as (x & K & _). discriminate.
    + destruct T as [T|[t T]]; [now apply app_eq_nil in T|]. destruct (@exists_last _ (b :: q)) as (u & y & EU); [discriminate|]. rewrite EU in T, Q. rewrite app_assoc in T.
      apply app_inj_tail in T. destruct T as [_ ->]. apply Q. apply in_or_app. right. now left.
Qed.

(** * Lossy lines *)
Lemma concat_last_LF : forall rs, last_nl true rs = true -> rs <> [] -> concat rs <> [].
Proof.
  intros rs H NE. destruct rs as [|r rs _] using rev_ind; [contradiction|]. unfold last_nl in H. rewrite last_opt_snoc in H. rewrite concat_app. cbn [concat].
  destruct r as [|x [|y r]]; try discriminate. intro K. apply app_eq_nil in K. destruct K as [_ K]. discriminate.
Qed.
Lemma translate_nonnil : forall s, s <> [] -> translate false false s <> [].
Proof.
  intros s NE. destruct (replaced_total false false s) as [rs R]. rewrite (translate_replaced _ _ _ _ R). unfold needs_newline.
  destruct (last_nl true rs) eqn:E; cbn [negb].
  - assert (RN : rs <> []) by (intros ->; inversion R; subst; contradiction). pose proof (concat_last_LF _ E RN) as C. destruct (concat rs) as [|c t] eqn:EC; [contradiction|].
    rewrite app_nil_r. unfold guard_start. destruct (is_basic_text_start c); unfold guard_end; destruct (last_opt _) as [x|]; try destruct (is_basic_text_end x); discriminate.
  - intro K. apply app_eq_nil in K. destruct K as [_ K]. discriminate.
Qed.
Lemma reads_as_nonnil : forall v text, reads_as v text -> without_bom v <> [] -> exists u, text = u ++ [LF].
Proof.
  intros v text H NE. destruct (reads_as_ok _ _ H) as (_ & LT & _). destruct (reads_as_converted _ _ H) as (script & EV & NP & BV & ET).
  destruct LT as [->|LT]; [|exact LT]. exfalso. pose proof (converted_pieces false false script NP BV) as P. rewrite EV, <- ET in P. destruct P as (ps & E & F & EP).
  apply (translate_nonnil _ NE). rewrite <- E. destruct ps as [|p ps]; [reflexivity|]. exfalso. cbn [map concat] in EP. symmetry in EP. apply app_eq_nil in EP. destruct EP as [EP _].
  inversion F as [|? ? (a & x & -> & HX) _]; subst. assert (HB : boundary x) by (destruct HX as [-> | ->]; [left|right]; reflexivity).
  destruct (pipeline_end a x HB) as [z EZ]. rewrite EZ in EP. now apply app_eq_nil in EP.
Qed.
Lemma without_bom_snoc : forall v, without_bom (v ++ [LF]) <> [].
Proof. intros [|c v]; [discriminate|]. cbn. destruct (c =? 0xFEFF); [destruct v; discriminate|discriminate]. Qed.
Lemma lossy_line : forall v r, lossy (v ++ [LF]) r -> exists u, r = Some (u ++ [LF]) /\ string_ok (u ++ [LF]).
Proof.
  intros v r H. destruct (lossy_ok _ _ H) as (t & -> & OK). destruct H as (text & RA & EQ). destruct (reads_as_nonnil _ _ RA (without_bom_snoc v)) as [u ->].
  assert (K : exists u', t = u' ++ [LF]).
  { unfold lossy_result in EQ. destruct v as [|c v]; cbn [app] in EQ.
    - injection EQ as ->. eauto.
    - destruct (c =? BOM); [|change (c :: v ++ [LF]) with ((c :: v) ++ [LF]) in EQ]; rewrite last_opt_snoc in EQ; cbn in EQ; injection EQ as ->; [now exists (WJ :: u)|now exists u]. }
  destruct K as [u' ->]. eauto.
Qed.
(** the end of a line made valid *)
Definition fixed_end (l : list N) : list N := if opt_all is_basic_text_end (last_opt l) then l else l ++ [CGJ].
Lemma fixed_end_ok : forall u v, string_ok (u ++ v) -> string_ok (fixed_end u).
Proof.
  intros u v H. unfold fixed_end. destruct (opt_all is_basic_text_end (last_opt u)) eqn:E; [apply (string_ok_prefix _ v); [exact H|now apply ends_ok_iff]|].
  destruct u as [|x u]; [discriminate|]. destruct H as (H & S & _). split; [|split].
  - apply substr_spec. apply substr_spec in H. rewrite substr_ok_iff in *. destruct H as [H1 H2]. apply Forall_app in H1. apply nfc_ss_app in H2. split.
    + apply Forall_app. split; [tauto|]. constructor; [|constructor]. vm_compute. reflexivity.
    + apply nfc_ss_split; [exact boring_CGJ|tauto|]. apply (nfc_ss_app (x :: u) []). rewrite app_nil_r. tauto.
  - intros c t EQ. injection EQ as <- _. now apply (S x (u ++ v)).
  - intros t c EQ. apply app_inj_tail in EQ. destruct EQ as [_ <-]. exact end_CGJ.
Qed.
(** the item for the bytes [p] of a line: an error only if they are not UTF-8;
    otherwise the lossy conversion of the line, with U+34F after a non-ender *)
Definition lossy_for (p : list N) (it : item) : Prop :=
  match it with
  | Line l => string_ok l /\ exists v u, scalars v /\ p = encode_all v /\ lossy (v ++ [0xA]) (Some (u ++ [0xA])) /\ (l = u \/ (~ ends_ok u /\ l = u ++ [0x34F]))
  | LineErr => ~ exists v, scalars v /\ p = encode_all v
  end.
Lemma next_lossy_spec : forall debug conv, (forall v, lossy v (conv v)) -> forall p t, ~ In LF p ->
  exists it, next_line_lossy debug conv (p ++ LF :: t) = Some (Some it, t) /\ lossy_for p it.
Proof.
  intros debug conv HC p t H. unfold next_line_lossy, read_text_line_lossy, read_line. rewrite until_lf_line by exact H.
  destruct (decode_snoc_LF p) as [(s & SC & EP & ED)|(NE & s & b & r & ED)]; rewrite ED; cbn [app].
  2:{ exists LineErr. split; [reflexivity|exact NE]. }
  pose proof (HC (s ++ [LF])) as L. destruct (lossy_line _ _ L) as (u & EC & OK). rewrite EC in *.
  replace (length (p ++ [LF])) with (S (length p)) by (rewrite app_length; cbn; lia). rewrite ends_snoc. cbn [negb]. rewrite andb_false_r, removelast_snoc.
  assert (NC : ends_with CR u = false).
  { destruct OK as ((_ & _ & A) & _). apply Forall_app in A. destruct A as [A _]. unfold ends_with. destruct (last_opt u) as [c|] eqn:E; [|reflexivity].
    apply last_opt_some in E. destruct E as [w ->]. apply Forall_app in A. destruct A as [_ A]. inversion A as [|? ? AC _]; subst. apply N.eqb_neq. intros ->. discriminate AC. }
  rewrite NC, andb_false_r. eexists. split; [reflexivity|]. fold (fixed_end u). split; [exact (fixed_end_ok _ _ OK)|]. exists s, u. split; [exact SC|]. split; [exact EP|]. split; [exact L|].
  unfold fixed_end. destruct (opt_all is_basic_text_end (last_opt u)) eqn:EE; [now left|right]. split; [|reflexivity]. intro K. apply ends_ok_iff in K. congruence.
Qed.
Lemma next_lossy_nil : forall debug conv, (forall v, lossy v (conv v)) -> next_line_lossy debug conv [] = Some (None, []).
Proof. intros debug conv HC. unfold next_line_lossy, read_text_line_lossy, read_line. cbn. destruct (lossy_ok _ _ (HC [])) as (t & -> & _). reflexivity. Qed.
Theorem lossy_lines_spec : forall debug conv ps, (forall v, lossy v (conv v)) -> Forall (fun p => ~ In 0xA p) ps ->
  exists its, text_lines_lossy debug conv (lines_of ps) = Some its /\ Forall2 lossy_for ps its.
Proof.
  intros debug conv ps HC F. destruct (all_items_lines _ lossy_for (next_lossy_spec debug conv HC) (next_lossy_nil debug conv HC) ps [] (length (lines_of ps)) F) as (its & F2 & A & _).
  { rewrite app_nil_r. apply le_n. }
  exists its. specialize (A eq_refl). rewrite app_nil_r in A. auto.
Qed.
Lemma next_lossy_rest : forall debug conv q, (forall v, lossy v (conv v)) -> ~ In LF q -> q <> [] ->
  match next_line_lossy debug conv q with
  | None => debug = true
  | Some (Some (Line l), t) => t = [] /\ string_ok l
  | Some (Some LineErr, t) => t = [] /\ ~ exists s, scalars s /\ q = encode_all s
  | Some (None, _) => False
  end.
Proof.
  intros debug conv q HC H NE. unfold next_line_lossy, read_text_line_lossy, read_line. rewrite until_lf_rest by exact H.
  destruct (decode_rest q) as [(s & SC & EP & ED)|(NV & s & b & r & ED)]; rewrite ED; cbn [app]; [|now split].
  destruct (lossy_ok _ _ (HC s)) as (t & -> & OK). destruct q as [|x q]; [contradiction|]. cbn [length].
  destruct (debug && negb (ends_with LF t)) eqn:E1; [apply andb_true_iff in E1; tauto|]. destruct (debug && ends_with CR (removelast t)) eqn:E2; [apply andb_true_iff in E2; tauto|].
  split; [reflexivity|]. fold (fixed_end (removelast t)). destruct t as [|c l _] using rev_ind; [exact OK|]. rewrite removelast_snoc. exact (fixed_end_ok _ _ OK).
Qed.
Theorem lossy_lines_valid : forall debug conv src its l, (forall v, lossy v (conv v)) -> text_lines_lossy debug conv src = Some its -> In (Line l) its -> string_ok l.
Proof.
  intros debug conv src its l HC H K. destruct (lines_exist (length src) src (le_n _)) as (ps & q & -> & F & Q).
  destruct (all_items_lines _ lossy_for (next_lossy_spec debug conv HC) (next_lossy_nil debug conv HC) ps q (length (lines_of ps ++ q)) F (le_n _)) as (its' & F2 & A1 & A2).
  unfold text_lines_lossy in H. assert (V : In (Line l) its' -> string_ok l).
  { intro I. clear - F2 I. induction F2 as [|p it ps its P F2 IH]; [destruct I|]. destruct I as [->|I]; [exact (proj1 P)|auto]. }
  destruct q as [|b q]; [rewrite (A1 eq_refl) in H; injection H as <-; auto|]. rewrite A2 in H. assert (NE : b :: q <> []) by discriminate.
  pose proof (next_lossy_rest debug conv (b :: q) HC Q NE) as R. destruct (length (lines_of ps ++ b :: q) - length ps)%nat as [|f]; cbn [all_items] in H; [injection H as <-; rewrite app_nil_r in K; auto|].
  destruct (next_line_lossy debug conv (b :: q)) as [[[it|] t]|]; [|contradiction|discriminate].
  assert (t = []) as -> by (destruct it; tauto). assert (Z : all_items (next_line_lossy debug conv) f [] = Some []).
  { destruct f; [reflexivity|]. cbn [all_items]. now rewrite next_lossy_nil. }
  rewrite Z in H. injection H as <-. apply in_app_or in K. destruct K as [K|[->|[]]]; [auto|tauto].
Qed.
(** Valid lines are kept. *)
Theorem lossy_lines_keep : forall debug conv ls, (forall v, lossy v (conv v)) ->
  Forall (fun l => scalars l /\ string_ok l /\ ~ In LF l /\ Forall (fun c => is_assigned c = true) l) ls ->
  text_lines_lossy debug conv (encode_all (concat (map (fun l => l ++ [0xA]) ls))) = Some (map Line ls).
Proof.
  intros debug conv ls HC F. assert (E : encode_all (concat (map (fun l => l ++ [0xA]) ls)) = lines_of (map encode_all ls)).
  { clear F. induction ls as [|l ls IH]; [reflexivity|]. unfold lines_of in *. cbn [map concat]. rewrite encode_all_app, IH. f_equal. apply encode_snoc_LF. }
  rewrite E. destruct (lossy_lines_spec debug conv (map encode_all ls) HC) as (its & -> & F2).
  { apply Forall_forall. intros p I. apply in_map_iff in I. destruct I as (l & <- & I). apply (proj1 (Forall_forall _ _) F) in I. destruct I as (S & _ & N & _). intro K. apply N. now apply encode_in_LF. }
  f_equal. clear E. revert its F2. induction ls as [|l ls IH]; intros its F2; inversion F2 as [|? it ? its' H F3]; subst; [reflexivity|]. inversion F as [|? ? (L1 & L2 & L3 & L4) FS]; subst.
  cbn [map]. f_equal; [|now apply IH]. destruct it as [l'|]; [|exfalso; apply H; eauto]. destruct H as (_ & v & u & V1 & V2 & V3 & V4). apply encode_all_inj in V2; auto. subst v.
  assert (EU : Some (u ++ [0xA]) = Some (l ++ [LF])).
  { apply (lossy_keeps _ _ (ok_snoc _ L2)); [|exact V3]. apply Forall_app. split; [exact L4|]. constructor; [|constructor]. vm_compute. reflexivity. }
  injection EU as EU. apply app_inj_tail in EU. destruct EU as [-> _]. destruct V4 as [->|[V4 _]]; [reflexivity|]. exfalso. apply V4. apply L2.
Qed.
