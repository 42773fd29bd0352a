(** The reader takes U+D and U+D U+A as line ends. *)
From Coq Require Import NArith Arith List Bool Lia ZifyBool ZifyNat ZifyN.
From Verif Require Import Base Ucd UcdTables Norm Chars TextTables TextUtils UcdFacts NormFacts CharFacts DocTable SpecText TextFacts PipelineFacts DocFacts IsoFacts
  Utf8 Utf8Facts Input Output ReadFacts ReadInv ReadSession SpecRead ReadChunk SpecEscape EscapeFacts EscapeRun ReadProps KeepFacts ReadPieces SpecConv ConvFacts DocProps CatProps SpecPush PushProps SpecCat SpecNewlines.
Import ListNotations.
Local Open Scope N_scope.
Arguments N.add : simpl never.
Arguments N.leb : simpl never.
Arguments N.ltb : simpl never.
Arguments N.eqb : simpl never.
Local Opaque pipeline replace.

(** A line end, in a state that is not after "ESC [ [". *)
Lemma run_lf : forall nel lsps e y s, y <> Cr -> y <> Linux -> y <> Osc ->
  run nel lsps (e, y) (LF :: s) = let '(o, x) := run nel lsps (false, Ground true) s in (LF :: o, x).
Proof.
  intros nel lsps e y s N1 N2 N3. rewrite run_cons.
  assert (E : tstep nel lsps (e, y) LF = ([LF], (false, Ground true))) by (destruct y; try congruence; reflexivity).
  now rewrite E.
Qed.
Lemma run_to_cr : forall nel lsps e y s, y <> Cr -> y <> Linux -> y <> Osc -> exists e', run nel lsps (e, y) (CR :: s) = run nel lsps (e', Cr) s.
Proof.
  intros nel lsps e y s N1 N2 N3. destruct y; try congruence; (exists e + exists false); apply run_silent; reflexivity.
Qed.
Lemma run_osc : forall nel lsps e c s, c = LF \/ c = CR -> run nel lsps (e, Osc) (c :: s) = run nel lsps (e, Osc) s.
Proof. intros nel lsps e c s [-> | ->]; apply run_silent; reflexivity. Qed.
Lemma run_linux : forall nel lsps e c s, c = LF \/ c = CR -> run nel lsps (e, Linux) (c :: s) = run nel lsps (e, Ground false) s.
Proof. intros nel lsps e c s [-> | ->]; apply run_silent; reflexivity. Qed.

(** What is left of a text that can still finish "ESC [ [" and a line end. *)
Definition coming (y : state) : list (list N) :=
  [0x1B; 0x5B; 0x5B; 0xA] :: match y with Esc => [[0x5B; 0x5B; 0xA]] | CsiStart => [[0x5B; 0xA]] | Linux => [[0xA]] | _ => [] end.
Definition clear_of (y : state) (s : list N) : Prop :=
  ~ within cut_line_end s /\ forall p b, In p (coming y) -> s <> p ++ b.
Lemma clear_step : forall nel lsps e y c s, clear_of y (c :: s) -> clear_of (snd (snd (tstep nel lsps (e, y) c))) s.
Proof.
  intros nel lsps e y c s [W B]. assert (W' : ~ within cut_line_end s).
  { intros (a & b & ->). apply W. exists (c :: a), b. reflexivity. }
  split; [exact W'|]. intros p b [<-|IP] E; [apply W'; exists [], b; exact E|].
  assert (T : (snd (snd (tstep nel lsps (e, y) c)) = Esc /\ c = 0x1B) \/ (snd (snd (tstep nel lsps (e, y) c)) = CsiStart /\ y = Esc /\ c = 0x5B) \/
    (snd (snd (tstep nel lsps (e, y) c)) = Linux /\ y = CsiStart /\ c = 0x5B)).
  { assert (G : forall e' o, snd (snd (G nel lsps e' c)) = o -> (o = Esc -> c = 0x1B) /\ o <> CsiStart /\ o <> Linux).
    { intros e' o <-. destruct (N.eq_dec c CR) as [-> |C1]; [split; [discriminate|split; discriminate]|]. destruct (N.eq_dec c FF) as [-> |C2]; [split; [discriminate|split; discriminate]|].
      destruct (N.eq_dec c ESC) as [-> |C3]; [split; [reflexivity|split; discriminate]|]. rewrite G_char by assumption. split; [discriminate|split; discriminate]. }
    assert (K : forall o, o = snd (snd (tstep nel lsps (e, y) c)) -> (o = Esc -> c = 0x1B) /\ (o = CsiStart -> y = Esc /\ c = 0x5B) /\ (o = Linux -> y = CsiStart /\ c = 0x5B)).
    { intros o EO. assert (GG : forall e', o = snd (snd (EscapeRun.G nel lsps e' c)) -> (o = Esc -> c = 0x1B) /\ (o = CsiStart -> y = Esc /\ c = 0x5B) /\ (o = Linux -> y = CsiStart /\ c = 0x5B)).
      { intros e' ->. destruct (G e' _ eq_refl) as (K1 & K2 & K3). split; [exact K1|]. split; intro; contradiction. }
      assert (ST : forall z, (z = Ground false \/ z = Ground true \/ z = Ff \/ z = Csi \/ z = Osc \/ z = Cr) -> o = z -> (o = Esc -> c = 0x1B) /\ (o = CsiStart -> y = Esc /\ c = 0x5B) /\ (o = Linux -> y = CsiStart /\ c = 0x5B)).
      { intros z Z ->. destruct Z as [->|[->|[->|[->|[->| ->]]]]]; (split; [discriminate|split; discriminate]). }
      destruct y.
      - rewrite t_ground in EO. eauto.
      - destruct (N.eq_dec c LF) as [-> |C]; [rewrite t_cr_lf in EO; cbn [fst snd] in EO; eapply ST; [|exact EO]; auto|]. rewrite t_cr in EO by exact C. cbn [fst snd] in EO. eauto.
      - destruct (N.eq_dec c FF) as [-> |C]; [rewrite t_ff_ff in EO; cbn [fst snd] in EO; eapply ST; [|exact EO]; auto|]. destruct (N.eq_dec c LF) as [C1|C1]; [rewrite t_ff_end in EO by auto; eauto|].
        destruct (N.eq_dec c CR) as [C2|C2]; [rewrite t_ff_end in EO by auto; eauto|]. rewrite t_ff in EO by assumption. cbn [fst snd] in EO. eauto.
      - destruct (N.eq_dec c 0x5B) as [-> |C]; [rewrite t_esc_br in EO; cbn [fst snd] in EO; subst o; split; [discriminate|split; [auto|discriminate]]|].
        destruct (N.eq_dec c 0x5D) as [-> |C1]; [rewrite t_esc_osc in EO; cbn [fst snd] in EO; eapply ST; [|exact EO]; auto 6|].
        destruct (N.eq_dec c ESC) as [-> |C2]; [rewrite t_esc_esc in EO; cbn [fst snd] in EO; subst o; split; [reflexivity|split; discriminate]|].
        destruct (D_final c) as [F|F]; [rewrite t_esc_final in EO by assumption; cbn [fst snd] in EO; eapply ST; [|exact EO]; auto|]. rewrite t_esc_other in EO by assumption. eauto.
      - destruct (N.eq_dec c 0x5B) as [-> |C]; [rewrite t_start_linux in EO; cbn [fst snd] in EO; subst o; split; [discriminate|split; [discriminate|auto]]|].
        rewrite t_start in EO by exact C. destruct (D_param c) as [P|P]; [rewrite t_csi_param in EO by exact P; cbn [fst snd] in EO; eapply ST; [|exact EO]; auto 6|].
        destruct (D_final c) as [F|F]; [rewrite t_csi_final in EO by assumption; cbn [fst snd] in EO; eapply ST; [|exact EO]; auto|]. rewrite t_csi_other in EO by assumption. eauto.
      - destruct (D_param c) as [P|P]; [rewrite t_csi_param in EO by exact P; cbn [fst snd] in EO; eapply ST; [|exact EO]; auto 6|].
        destruct (D_final c) as [F|F]; [rewrite t_csi_final in EO by assumption; cbn [fst snd] in EO; eapply ST; [|exact EO]; auto|]. rewrite t_csi_other in EO by assumption. eauto.
      - destruct (D_osc c) as [P|P]; [rewrite t_osc_char in EO by exact P; cbn [fst snd] in EO; eapply ST; [|exact EO]; auto 6|].
        destruct (N.eq_dec c ESC) as [-> |C]; [rewrite t_osc_esc in EO; eauto|]. rewrite t_osc_end in EO by (unfold osc_char, osc_end in *; change ESC with 0x1B in C; lia). cbn [fst snd] in EO; eapply ST; [|exact EO]; auto.
      - destruct (N.le_gt_cases c 0x7F) as [L|L]; [rewrite t_linux_char in EO by exact L; cbn [fst snd] in EO; eapply ST; [|exact EO]; auto|]. rewrite t_linux_other in EO by lia. eauto. }
    specialize (K _ eq_refl). destruct (snd (snd (tstep nel lsps (e, y) c))); try (now destruct IP); intuition. }
  destruct T as [[ET ->]|[(ET & -> & ->)|(ET & -> & ->)]]; rewrite ET in IP; destruct IP as [<-|[]]; subst s.
  - apply W. exists [], b. reflexivity.
  - eapply (B [0x5B; 0x5B; 0xA] b); [right; now left|reflexivity].
  - eapply (B [0x5B; 0xA] b); [right; now left|reflexivity].
Qed.

Lemma run_same : forall nel lsps s t, same_lines s t -> forall e y, y <> Cr -> (clear_of y s \/ ~ within crlf_line_end t) -> run nel lsps (e, y) s = run nel lsps (e, y) t.
Proof.
  assert (WT : forall c t, ~ within crlf_line_end (c :: t) -> ~ within crlf_line_end t).
  { intros c t H (a & b & ->). apply H. exists (c :: a), b. reflexivity. }
  intros nel lsps s t H. induction H as [|c s t C1 C2 H IH|s t H IH|s t H IH|s t H IH NL]; intros e y NC K.
  - reflexivity.
  - rewrite !run_cons. destruct (tstep nel lsps (e, y) c) as [o [e' y']] eqn:ET. rewrite (IH e' y'); [reflexivity| |].
    + intros ->. assert (Q : snd (snd (tstep nel lsps (e, y) c)) = Cr) by now rewrite ET. revert Q. clear - C1 C2 NC.
      assert (G : forall e', snd (snd (EscapeRun.G nel lsps e' c)) <> Cr).
      { intros e'. destruct (N.eq_dec c FF) as [-> |C3]; [discriminate|]. destruct (N.eq_dec c ESC) as [-> |C4]; [discriminate|]. rewrite G_char by assumption. discriminate. }
      destruct y; try congruence.
      * rewrite t_ground. apply G.
      * destruct (N.eq_dec c FF) as [-> |C]; [discriminate|]. rewrite t_ff by assumption. cbn. apply G.
      * destruct (N.eq_dec c 0x5B) as [-> |C]; [discriminate|]. destruct (N.eq_dec c 0x5D) as [-> |C3]; [discriminate|]. destruct (N.eq_dec c ESC) as [-> |C4]; [discriminate|].
        destruct (D_final c) as [F|F]; [rewrite t_esc_final by assumption; discriminate|]. rewrite t_esc_other by assumption. apply G.
      * destruct (N.eq_dec c 0x5B) as [-> |C]; [discriminate|]. rewrite t_start by exact C. destruct (D_param c) as [P|P]; [rewrite t_csi_param by exact P; discriminate|].
        destruct (D_final c) as [F|F]; [rewrite t_csi_final by assumption; discriminate|]. rewrite t_csi_other by assumption. apply G.
      * destruct (D_param c) as [P|P]; [rewrite t_csi_param by exact P; discriminate|].
        destruct (D_final c) as [F|F]; [rewrite t_csi_final by assumption; discriminate|]. rewrite t_csi_other by assumption. apply G.
      * destruct (D_osc c) as [P|P]; [rewrite t_osc_char by exact P; discriminate|].
        destruct (N.eq_dec c ESC) as [-> |C]; [discriminate|]. rewrite t_osc_end by (unfold osc_char, osc_end in *; change ESC with 0x1B in C; lia). discriminate.
      * destruct (N.le_gt_cases c 0x7F) as [L|L]; [rewrite t_linux_char by exact L; discriminate|]. rewrite t_linux_other by lia. apply G.
    + destruct K as [K|K]; [left|right; eauto]. apply (clear_step nel lsps e) in K. now rewrite ET in K.
  - change 0xA with LF. rewrite !run_cons.
    assert (NX : snd (snd (tstep nel lsps (e, y) LF)) <> Cr) by (destruct y; try congruence; discriminate).
    destruct (tstep nel lsps (e, y) LF) as [o [e' y']] eqn:ET. cbn [snd] in NX. rewrite (IH e' y' NX); [reflexivity|].
    destruct K as [K|K]; [left|right; eauto]. apply (clear_step nel lsps e) in K. change 0xA with LF in K. now rewrite ET in K.
  - destruct K as [K|K]; [|destruct K; exists [], t; reflexivity]. change 0xA with LF. change 0xD with CR.
    pose proof (clear_step nel lsps e _ _ _ K) as KS. change 0xA with LF in KS.
    assert (NL : y <> Linux). { intros ->. destruct K as [_ B]. eapply (B [0xA] s); [right; now left|reflexivity]. }
    assert (O : y = Osc \/ y <> Osc) by (destruct y; auto; right; discriminate). destruct O as [-> |NO].
    + rewrite !run_osc by auto. apply IH; [discriminate|]. now left.
    + rewrite run_lf by assumption. destruct (run_to_cr nel lsps e y (LF :: t) NC NL NO) as [e' ->]. rewrite run_cr_lf.
      rewrite (IH false (Ground true)); [reflexivity|discriminate|]. left.
      assert (E : tstep nel lsps (e, y) LF = ([LF], (false, Ground true))) by (destruct y; try congruence; reflexivity). now rewrite E in KS.
  - change 0xA with LF. change 0xD with CR.
    assert (KS : clear_of (snd (snd (tstep nel lsps (e, y) LF))) s \/ ~ within crlf_line_end t).
    { destruct K as [K|K]; [left; exact (clear_step nel lsps e _ _ _ K)|right; eauto]. }
    assert (O : y = Osc \/ y = Linux \/ (y <> Osc /\ y <> Linux)) by (destruct y; auto; right; right; split; discriminate). destruct O as [->|[->|[NO NLx]]].
    + rewrite !run_osc by auto. apply IH; [discriminate|exact KS].
    + rewrite !run_linux by auto. apply IH; [discriminate|exact KS].
    + rewrite run_lf by assumption. destruct (run_to_cr nel lsps e y t NC NLx NO) as [e' ->].
      rewrite run_cr by (intros c u EU ->; exact (NL u EU)). rewrite (IH false (Ground true)); [reflexivity|discriminate|].
      assert (E : tstep nel lsps (e, y) LF = ([LF], (false, Ground true))) by (destruct y; try congruence; reflexivity). now rewrite E in KS.
Qed.

(** The replacements of the two texts. *)
Lemma same_replaced : forall nel lsps s t rs rs', same_lines s t -> whole_ends s t ->
  replaced true (char_rep nel lsps) s rs -> replaced true (char_rep nel lsps) t rs' -> concat rs = concat rs' /\ forall b, last_nl b rs = last_nl b rs'.
Proof.
  intros nel lsps s t rs rs' H W R R'.
  destruct (run_replaced nel lsps s) as (r1 & R1 & U1). rewrite (replaced_det _ _ _ _ R1 _ R) in U1.
  destruct (run_replaced nel lsps t) as (r2 & R2 & U2). rewrite (replaced_det _ _ _ _ R2 _ R') in U2.
  assert (E : forall b, run nel lsps (false, Ground b) s = run nel lsps (false, Ground b) t).
  { intro b. apply run_same; [exact H|discriminate|]. destruct W as [W|W]; [left|now right]. split; [exact W|].
    intros p u [<-|[]] EQ. apply W. exists [], u. exact EQ. }
  split.
  - specialize (E true). rewrite U1, U2 in E. now injection E.
  - intro b. specialize (E b). rewrite U1, U2 in E. now injection E.
Qed.

Lemma same_pushed : forall nel lsps segs segs' rss rss', Forall2 same_lines segs segs' -> Forall2 whole_ends segs segs' ->
  Forall2 (replaced true (char_rep nel lsps)) segs rss -> Forall2 (replaced true (char_rep nel lsps)) segs' rss' -> pushed_text rss = pushed_text rss'.
Proof.
  intros nel lsps segs segs' rss rss' H W R R'. unfold pushed_text. rewrite !final_last.
  enough (G : concat (map guarded rss) = concat (map guarded rss') /\ forall b, last_nl b (concat rss) = last_nl b (concat rss')) by (destruct G as [-> G]; now rewrite G).
  revert segs' rss' H W R'. induction R as [|s rs segs rss R RR IH]; intros segs' rss' H W R'; inversion H; subst; inversion W; subst; inversion R'; subst; [auto|].
  destruct (same_replaced nel lsps _ _ _ _ H2 H5 R H3) as [E L]. destruct (IH _ _ H4 H7 H8) as [E2 L2]. cbn [map concat]. split.
  - rewrite E2. unfold guarded. now rewrite E.
  - intro b. rewrite !last_nl_app, L. apply L2.
Qed.

Theorem newlines_same : forall nel lsps s1 s2 o1 o2, gives nel lsps s1 o1 -> gives nel lsps s2 o2 -> bom_visible s1 -> bom_visible s2 ->
  Forall2 same_lines (segments_read s1) (segments_read s2) -> Forall2 whole_ends (segments_read s1) (segments_read s2) ->
  settled_segments nel lsps (segments_read s1) -> o1 = o2.
Proof.
  intros nel lsps s1 s2 o1 o2 (z1 & r1 & j1 & t1 & H1 & E1 & <-) (z2 & r2 & j2 & t2 & H2 & E2 & <-) B1 B2 S W U.
  assert (T : forall segs, exists rss, Forall2 (replaced true (char_rep nel lsps)) segs rss).
  { induction segs as [|s segs [rss F]]; [exists []; constructor|]. destruct (replaced_total nel lsps s) as [rs R]. exists (rs :: rss). now constructor. }
  destruct (T (segments_read s1)) as [rss F]. destruct (T (segments_read s2)) as [rss' F'].
  pose proof (same_pushed _ _ _ _ _ _ S W F F') as EQ. specialize (U _ F).
  rewrite (session_pushed _ _ _ _ _ _ _ _ H1 E1 B1 F U). rewrite EQ in U |- *. now rewrite (session_pushed _ _ _ _ _ _ _ _ H2 E2 B2 F' U).
Qed.

(** The two other conventions. *)
Lemma same_refl : forall s, ~ In 0xD s -> same_lines s s.
Proof.
  induction s as [|c s IH]; intro H; [constructor|]. assert (IS : same_lines s s) by (apply IH; intro K; apply H; now right).
  destruct (N.eq_dec c 0xA) as [-> |C]; [now constructor|]. constructor; auto. intros ->. apply H. now left.
Qed.
Lemma same_dos : forall s, ~ In 0xD s -> same_lines s (dos s).
Proof.
  induction s as [|c s IH]; intro H; [constructor|]. assert (IS : same_lines s (dos s)) by (apply IH; intro K; apply H; now right).
  unfold dos. cbn [flat_map]. fold (dos s). destruct (N.eqb_spec c 0xA) as [-> |C]; cbn [app]; [now constructor|]. constructor; auto. intros ->. apply H. now left.
Qed.
Lemma mac_no_lf : forall s, ~ In 0xA (mac s).
Proof. induction s as [|c s IH]; [auto|]. intros [K|K]; [|contradiction]. destruct (N.eqb_spec c 0xA); [discriminate|contradiction]. Qed.
Lemma same_mac : forall s, ~ In 0xD s -> same_lines s (mac s).
Proof.
  induction s as [|c s IH]; intro H; [constructor|]. assert (IS : same_lines s (mac s)) by (apply IH; intro K; apply H; now right).
  unfold mac. cbn [map]. fold (mac s). destruct (N.eqb_spec c 0xA) as [-> |C].
  - constructor; [exact IS|]. intros u E. apply (mac_no_lf s). rewrite E. now left.
  - constructor; auto. intros ->. apply H. now left.
Qed.
Lemma mac_whole : forall s, whole_ends s (mac s).
Proof. intro s. right. intros (a & b & E). apply (mac_no_lf s). rewrite E, in_app_iff. right. right. now left. Qed.

(** Strings. *)
Lemma same_last : forall s t, same_lines s t -> match last_opt s, last_opt t with
  | None, None => True
  | Some a, Some b => (a = LF /\ (b = LF \/ b = CR)) \/ (a = b /\ a <> LF /\ a <> CR)
  | _, _ => False
  end.
Proof.
  assert (LC : forall (x : N) l, last_opt (x :: l) = match last_opt l with Some y => Some y | None => Some x end).
  { intros x [|y l]; [reflexivity|]. change (last_opt (x :: y :: l)) with (last_opt (y :: l)). destruct (last_opt (y :: l)) eqn:E; [reflexivity|]. now apply last_opt_none in E. }
  intros s t H. induction H as [|c s t C1 C2 H IH|s t H IH|s t H IH|s t H IH NL]; [exact I| | | |]; rewrite !LC; destruct (last_opt s), (last_opt t); try contradiction; try exact IH; auto.
Qed.
Lemma same_bom : forall s t, same_lines s t -> same_lines (without_bom s) (without_bom t) /\ ((exists u, s = BOM :: u) <-> (exists u, t = BOM :: u)).
Proof.
  intros s t H. destruct H as [|c s t C1 C2 H|s t H|s t H|s t H NL]; cbn [without_bom].
  - split; [constructor|tauto].
  - destruct (N.eqb_spec c 0xFEFF) as [-> |C].
    + split; [exact H|]. split; intros _; eexists; reflexivity.
    + split; [now constructor|]. split; intros [u E]; injection E as -> _; now destruct C.
  - change (0xA =? 0xFEFF) with false. split; [now constructor|]. split; intros [u E]; discriminate.
  - change (0xA =? 0xFEFF) with false. change (0xD =? 0xFEFF) with false. split; [now constructor|]. split; intros [u E]; discriminate.
  - change (0xA =? 0xFEFF) with false. change (0xD =? 0xFEFF) with false. split; [now constructor|]. split; intros [u E]; discriminate.
Qed.
From Verif Require Import Strings SpecString LossyProps CertainProps.
Lemma same_lossy : forall s t text, same_lines s t -> lossy_result s text = lossy_result t text.
Proof.
  intros s t text H. destruct (same_bom _ _ H) as [W B]. unfold lossy_result.
  assert (E : forall v, match v with c :: u => if c =? BOM then (u, WJ :: text) else (v, text) | [] => (v, text) end
    = (without_bom v, if match v with c :: _ => c =? BOM | [] => false end then WJ :: text else text)).
  { intros [|c v]; [reflexivity|]. cbn [without_bom]. change 0xFEFF with BOM. now destruct (c =? BOM). }
  rewrite !E. assert (EB : match s with c :: _ => c =? BOM | [] => false end = match t with c :: _ => c =? BOM | [] => false end).
  { assert (Q : forall v : list N, match v with c :: _ => c =? BOM | [] => false end = true <-> exists u, v = BOM :: u).
    { intros [|c v]; [split; [discriminate|intros [u K]; discriminate]|]. rewrite N.eqb_eq. split; [intros ->; eauto|intros [u K]; now injection K]. }
    apply eq_true_iff_eq. now rewrite !Q. }
  rewrite EB. set (text' := if (match t with c :: _ => c =? BOM | [] => false end) then WJ :: text else text). clearbody text'.
  pose proof (same_last _ _ W) as L. destruct (last_opt (without_bom s)) as [a|], (last_opt (without_bom t)) as [b|]; try contradiction; [|reflexivity].
  destruct L as [[-> [-> | ->]]|(-> & N1 & N2)]; reflexivity.
Qed.
Theorem lossy_same : forall s t r r', lossy s r -> lossy t r' -> same_lines s t -> whole_ends (without_bom s) (without_bom t) -> settled false false (without_bom s) -> r = r'.
Proof.
  intros s t r r' (x & (c1 & z1 & r1 & j1 & t1 & ES & NP1 & NF1 & B1 & H1 & E1 & ->) & ->) (x' & (c2 & z2 & r2 & j2 & t2 & ET & NP2 & NF2 & B2 & H2 & E2 & ->) & ->) S W U.
  rewrite (received_delivered _ _ _ _ _ _ (wf_new _ _) NF1 H1), (received_delivered _ _ _ _ _ _ (wf_new _ _) NF2 H2).
  destruct (replaced_total false false (without_bom s)) as [rs R]. destruct (replaced_total false false (without_bom t)) as [rs' R'].
  destruct (same_replaced _ _ _ _ _ _ (proj1 (same_bom _ _ S)) W R R') as [EC EL].
  pose proof (U _ R) as U1. pose proof U1 as U2. rewrite EC in U2. rewrite <- ES in R. rewrite <- ET in R'.
  rewrite (session_conversion _ _ _ _ _ _ _ _ H1 E1 NP1 B1 R U1), (session_conversion _ _ _ _ _ _ _ _ H2 E2 NP2 B2 R' U2).
  assert (EQ : stream_conversion rs = stream_conversion rs').
  { unfold stream_conversion. rewrite EC. unfold needs_newline. now rewrite EL. }
  rewrite EQ. now apply same_lossy.
Qed.
Theorem newlines_mac : forall nel lsps s1 s2 o1 o2, gives nel lsps s1 o1 -> gives nel lsps s2 o2 -> bom_visible s1 -> bom_visible s2 ->
  Forall (fun s => ~ In 0xD s) (segments_read s1) -> segments_read s2 = map mac (segments_read s1) -> settled_segments nel lsps (segments_read s1) -> o1 = o2.
Proof.
  intros nel lsps s1 s2 o1 o2 G1 G2 B1 B2 C E U. apply (newlines_same nel lsps s1 s2 o1 o2 G1 G2 B1 B2); [| |exact U]; rewrite E; clear - C;
    induction C as [|s l H C IH]; constructor; auto using same_mac, mac_whole.
Qed.
Theorem newlines_dos : forall nel lsps s1 s2 o1 o2, gives nel lsps s1 o1 -> gives nel lsps s2 o2 -> bom_visible s1 -> bom_visible s2 ->
  Forall (fun s => ~ In 0xD s /\ ~ within cut_line_end s) (segments_read s1) -> segments_read s2 = map dos (segments_read s1) -> settled_segments nel lsps (segments_read s1) -> o1 = o2.
Proof.
  intros nel lsps s1 s2 o1 o2 G1 G2 B1 B2 C E U. apply (newlines_same nel lsps s1 s2 o1 o2 G1 G2 B1 B2); [| |exact U]; rewrite E; clear - C;
    induction C as [|s l [H K] C IH]; constructor; auto using same_dos. now left.
Qed.
