(** Text written behind coloured text that was cut off. *)
From Coq Require Import NArith Arith List Bool Lia ZifyBool ZifyNat ZifyN.
From Verif Require DebugProps.
From Verif Require Import Base Ucd UcdTables Norm Chars TextTables TextUtils UcdFacts NormFacts CharFacts DocTable SpecText TextFacts PipelineFacts DocFacts IsoFacts
  Utf8 Utf8Facts SpecUtf8 Utf8Lossy Input Output ReadFacts ReadInv ReadSession SpecRead ReadChunk SpecEscape EscapeFacts EscapeRun ReadProps KeepFacts ReadPieces SpecConv ConvFacts
  SpecWrite WriteFacts WriteProps Strings StringFacts ConcatFacts EdgeFacts SpecString StringProps ScalarFacts LossyProps SpecMore CanonProps SpecColour ColourProps SpecCat CatProps SpecCrash CrashProps SpecDamage DamageProps CrashColour DamageColour SeekProps SeekColour.
Import ListNotations.
Local Open Scope N_scope.
Arguments N.add : simpl never.
Arguments N.leb : simpl never.
Arguments N.ltb : simpl never.
Arguments N.eqb : simpl never.
Local Opaque pipeline.


Definition mild (x : tstate) : Prop := match snd x with Ground _ | Cr | Ff | Esc | CsiStart | Csi => True | _ => False end.
Lemma calm_mild : forall x, calm x -> mild x.
Proof. intros [e s] C. destruct s; try contradiction; exact I. Qed.
Lemma mild_lf : forall nel lsps x, mild x -> snd (snd (tstep nel lsps x 0xA)) = Ground true.
Proof. intros nel lsps [e s] C. destruct s; try contradiction; reflexivity. Qed.
Lemma mild_cr : forall nel lsps x, mild x -> snd (snd (tstep nel lsps x 0xD)) = Cr.
Proof. intros nel lsps [e s] C. destruct s; try contradiction; reflexivity. Qed.
Lemma mild_esc : forall nel lsps x, mild x -> snd (snd (tstep nel lsps x 0x1B)) = Esc.
Proof. intros nel lsps [e s] C. destruct s; try contradiction; reflexivity. Qed.
Lemma mild_bad : forall nel lsps x, mild x -> mild (snd (tstep nel lsps x 0xFFFD)).
Proof. intros nel lsps [e s] C. unfold mild. destruct s; try contradiction; exact I. Qed.
Lemma trans_end : forall nel lsps x c s, snd (trans nel lsps x (c :: s)) = snd (trans nel lsps (snd (tstep nel lsps x c)) s).
Proof. intros nel lsps x c s. cbn [trans]. destruct (tstep nel lsps x c) as [o x']. cbn [snd]. now destruct (trans nel lsps x' s). Qed.
Lemma run_after : forall nel lsps p x s, snd (snd (run nel lsps x (p ++ s))) = snd (snd (run nel lsps (snd (trans nel lsps x p)) s)).
Proof. intros nel lsps p. induction p as [|c p IH]; intros x s; [reflexivity|]. cbn [app]. rewrite run_end, IH. now rewrite trans_end. Qed.
Lemma csi_part : forall nel lsps ps p q x, Forall parameter ps -> ps ++ [0x6D] = p ++ q -> snd x = Csi \/ snd x = CsiStart -> mild (snd (trans nel lsps x p)) /\ (q = [] -> calm (snd (trans nel lsps x p))).
Proof.
  intros nel lsps ps. induction ps as [|a ps IH]; intros p q [e t] P E K; cbn [snd] in K.
  - destruct p as [|p0 p]; [cbn [app trans snd] in *; split; [destruct K as [-> | ->]; exact I|intros ->; discriminate]|]. injection E as <- E. symmetry in E. apply app_eq_nil in E. destruct E as [-> ->].
    assert (C : calm (snd (trans nel lsps (e, t) [0x6D]))) by (rewrite trans_end; destruct K as [-> | ->]; exact I). split; [now apply calm_mild|now intros _].
  - destruct p as [|p0 p]; [cbn [app trans snd] in *; split; [destruct K as [-> | ->]; exact I|intros ->; discriminate]|]. injection E as <- E. rewrite trans_end. apply (IH p q); [exact (Forall_inv_tail P)|exact E|]. left.
    pose proof (Forall_inv P) as PP. unfold parameter in PP. assert (R : in_range a 0x20 0x3F = true) by (unfold in_range; lia).
    destruct K as [-> | ->]; unfold tstep; cbn [step st stub snd fst]; [now rewrite R|]. replace (a =? 0x5B) with false by (symmetry; apply N.eqb_neq; lia). now rewrite R.
Qed.
Lemma sgr_part : forall nel lsps ps p q x, Forall parameter ps -> sgr ps = p ++ q -> calm x -> mild (snd (trans nel lsps x p)) /\ (q = [] -> calm (snd (trans nel lsps x p))).
Proof.
  intros nel lsps ps p q x P E C. unfold sgr in E. destruct p as [|p0 p]; [split; [now apply calm_mild|now intros _]|]. injection E as <- E. rewrite trans_end. pose proof (calm_esc nel lsps x C) as K. destruct (snd (tstep nel lsps x 0x1B)) as [e z]. cbn [snd] in K. subst z.
  destruct p as [|p0 p]; [split; [exact I|cbn [app] in E; intros ->; discriminate]|]. injection E as <- E. rewrite trans_end. apply (csi_part nel lsps ps p q); [exact P|exact E|now right].
Qed.
Lemma trans_app_end : forall nel lsps p q x, snd (trans nel lsps x (p ++ q)) = snd (trans nel lsps (snd (trans nel lsps x p)) q).
Proof. intros nel lsps p. induction p as [|c p IH]; intros q x; [reflexivity|]. cbn [app]. rewrite !trans_end. apply IH. Qed.
Lemma unc_mild : forall nel lsps u v, uncoloured u v -> forall p q x, u = p ++ q -> calm x -> mild (snd (trans nel lsps x p)).
Proof.
  intros nel lsps u v U. induction U as [|c s t HC U IH|ps s t P U IH]; intros p q x E C.
  - symmetry in E. apply app_eq_nil in E. destruct E as [-> _]. now apply calm_mild.
  - destruct p as [|p0 p]; [now apply calm_mild|]. injection E as <- E. rewrite trans_end. apply (IH p q); [exact E|now apply calm_step].
  - apply app_eq_app in E. destruct E as (l & [[E1 _]|[E1 E2]]).
    + exact (proj1 (sgr_part nel lsps ps p l x P E1 C)).
    + rewrite E1, trans_app_end. apply (IH l q); [exact E2|]. apply (sgr_part nel lsps ps (sgr ps) [] x P); [now rewrite app_nil_r|exact C|reflexivity].
Qed.
Lemma ground_end : forall nel lsps x, snd x = Ground true -> snd (snd (run nel lsps x [])) = Ground true.
Proof. intros nel lsps [e s] E. cbn [snd] in E. subst s. reflexivity. Qed.
(** What follows makes a new start: a line end, or a colour. *)
Lemma tail_end : forall nel lsps cr2 f wf x, uncoloured f wf -> f = [] \/ (exists f', f = 0x1B :: f') -> mild x -> snd (snd (run nel lsps x ((as_sent cr2 f ++ line_mark cr2) ++ [0xA]))) = Ground true.
Proof.
  intros nel lsps cr2 f wf x U [->|[f' ->]] M.
  - destruct cr2; [change ((as_sent true [] ++ line_mark true) ++ [0xA]) with [0xD; 0xA]|change ((as_sent false [] ++ line_mark false) ++ [0xA]) with [0xA]]; rewrite run_end; [|apply ground_end; now apply mild_lf]. rewrite run_end. apply ground_end, mild_lf. unfold mild. now rewrite (mild_cr nel lsps x M).
  - assert (UM : uncoloured (as_sent cr2 (0x1B :: f') ++ line_mark cr2) (as_sent cr2 wf ++ line_mark cr2)).
    { apply unc_app; [now apply unc_sent|]. destruct cr2; [apply unc_char; [discriminate|exact unc_nil]|exact unc_nil]. }
    assert (ES : as_sent cr2 (0x1B :: f') = 0x1B :: as_sent cr2 f') by (destruct cr2; reflexivity). rewrite ES in *. cbn [app]. rewrite run_end. pose proof (mild_esc nel lsps x M) as K. destruct (snd (tstep nel lsps x 0x1B)) as [e z]. cbn [snd] in K. subst z.
    pose proof (unc_run nel lsps _ _ UM (e, Ground false) I) as R. cbn [app] in R. rewrite run_end in R. exact R.
Qed.
Lemma tail_line : forall nel lsps cr2 s w h f wf, uncoloured s w -> scalars s -> beginning h (encode_all s) -> uncoloured f wf -> new_start f h ->
  forall p x, (p = [] \/ p = [0xFEFF]) -> utf8_lossy h ++ as_sent cr2 f ++ line_mark cr2 = p ++ x -> ends_line nel lsps (x ++ [0xA]).
Proof.
  intros nel lsps cr2 s w h f wf U S B UF NS p x PP E. apply line_run.
  assert (UM : uncoloured (as_sent cr2 f ++ line_mark cr2) (as_sent cr2 wf ++ line_mark cr2)).
  { apply unc_app; [now apply unc_sent|]. destruct cr2; [apply unc_char; [discriminate|exact unc_nil]|exact unc_nil]. }
  assert (CASE : (f = [] \/ (exists f', f = 0x1B :: f')) \/ (forall d, lossy_decoding h d -> exists w, uncoloured d w)) by (destruct NS as [NS|[NS|NS]]; auto).
  destruct CASE as [NF|NW].
  2:{ destruct (NW _ (utf8_lossy_spec h)) as [y Y]. destruct (unc_from _ _ (unc_app _ _ Y _ _ UM) p x E) as [y' Y']. now apply (unc_run nel lsps x y' Y'). }
  destruct (bytes_cut s h B) as (q & r & k & -> & -> & H). pose proof (cut_decoding q r k _ S H (utf8_lossy_spec _)) as D. rewrite D in E. clear D.
  assert (Q : exists q' v, uncoloured (q' ++ r) v /\ (x = q' ++ match k with [] => [] | _ => [0xFFFD] end ++ as_sent cr2 f ++ line_mark cr2 \/ exists c, as_sent cr2 f ++ line_mark cr2 = [c] ++ x)).
  { destruct PP as [->| ->]; [exists q, w; split; [exact U|left; cbn [app] in E; now rewrite <- E, <- app_assoc]|]. destruct q as [|c q].
    - exists [], w. split; [exact U|]. right. destruct k; [|discriminate]. now exists 0xFEFF.
    - injection E as _ E. destruct (unc_from _ _ U [c] (q ++ r) eq_refl) as [v V]. exists q, v. split; [exact V|]. left. now rewrite <- E, <- app_assoc. }
  destruct Q as (q' & v & V & [->|[c EC]]); [|destruct (unc_from _ _ UM [c] x EC) as [y Y]; now apply (unc_run nel lsps x y Y)].
  rewrite <- !app_assoc, run_after. pose proof (unc_mild nel lsps _ _ V q' r (true, Ground false) eq_refl I) as M. rewrite run_after, app_assoc. apply (tail_end nel lsps cr2 f wf); [exact UF|exact NF|].
  destruct k; [exact M|]. rewrite trans_end. cbn [trans snd]. now apply mild_bad.
Qed.
Lemma unc_sub : forall (P : N -> Prop) u v, uncoloured u v -> Forall P u -> Forall P v.
Proof.
  intros P u v U. induction U as [|c s t HC U IH|ps s t PS U IH]; intro F; [constructor| |].
  - constructor; [exact (Forall_inv F)|exact (IH (Forall_inv_tail F))].
  - apply Forall_app in F. exact (IH (proj2 F)).
Qed.
Section Append.
Variables (bom cr cr2 nel lsps : bool) (u t p tp r f wf u2 l b : list N).
Hypotheses (U : uncoloured u t) (ST : scalars t) (AT : Forall (fun c => is_assigned c = true) t) (CP : coloured_lines p tp) (ET : u = p ++ r) (UF : uncoloured f wf) (SF : scalars wf) (AF : Forall (fun c => is_assigned c = true) wf)
  (C2 : coloured_lines u2 l) (AL : Forall (fun c => is_assigned c = true) l) (CUT : cut_off bom cr u b) (SV : survives bom cr p b) (NS : new_start f b).
Lemma tail_decoding : forall h s, scalars s -> Forall (fun c => is_assigned c = true) s -> beginning h (encode_all s) ->
  lossy_decoding (h ++ encode_all (as_sent cr2 f) ++ line_mark cr2) (utf8_lossy h ++ as_sent cr2 f ++ line_mark cr2) /\ Forall (fun c => is_assigned c = true) (utf8_lossy h ++ as_sent cr2 f ++ line_mark cr2).
Proof.
  intros h s S A B. assert (EM : encode_all (line_mark cr2) = line_mark cr2) by (destruct cr2; reflexivity).
  assert (SS : scalars (as_sent cr2 f ++ line_mark cr2)) by (apply Forall_app; split; [exact (stored_scalars false cr2 f (unc_scalars f wf UF SF))|destruct cr2; repeat constructor]).
  rewrite <- EM at 1. rewrite <- encode_all_app. split.
  - apply decoding_app; [|apply utf8_lossy_spec|].
    + destruct (as_sent cr2 f ++ line_mark cr2) as [|c z]; [intros b' r' E; discriminate|]. apply encode_first.
    + pose proof (decoding_valid _ [] [] SS decoding_nil) as K. now rewrite !app_nil_r in K.
  - apply Forall_app. split; [exact (cut_assigned s h _ S A B (utf8_lossy_spec h))|]. apply Forall_app. split; [exact (sent_assigned false cr2 f (unc_assigned f wf UF AF))|]. destruct cr2; repeat constructor.
Qed.
Theorem colour_append : forall sc o, lossy_decoding (b ++ encode_all (as_sent cr2 (f ++ 0xA :: u2))) (stream_text sc) -> regular sc -> gives nel lsps sc o -> exists y, o = tp ++ y ++ 0xA :: l.
Proof.
  intros sc o X RG G. destruct CUT as [z CZ]. rewrite sent_line in X. pose proof (unc_scalars u t U ST) as SU. pose proof (unc_assigned u t U AT) as AU.
  destruct p as [|p0 p'] eqn:EP.
  - assert (TP : tp = []) by (destruct CP as (K & _); now inversion K). rewrite TP. clear TP.
    destruct (unc_stored bom cr u t U) as [w W]. destruct (tail_decoding b (stored bom cr u) (stored_scalars bom cr u SU) (sent_assigned bom cr u AU) CUT) as (D & A). rewrite app_assoc in X.
    set (d := utf8_lossy b ++ as_sent cr2 f ++ line_mark cr2) in *.
    assert (EL : ends_line nel lsps (without_bom (d ++ [0xA]))).
    { destruct (bom_line d) as (q & x & -> & E & PQ). apply (tail_line nel lsps cr2 _ w b f wf W (stored_scalars bom cr u SU) CUT UF NS q x); [exact PQ|exact E]. }
    destruct (colour_first cr2 nel lsps _ u2 l d C2 D EL AL sc o) with (2 := X) (3 := RG) (4 := G) as (y & -> & _); [|now exists y].
    intros rs R. apply (unguarded_assigned _ _ _ _ R). assert (A1 : Forall (fun c => is_assigned c = true) (d ++ [0xA])) by (apply Forall_app; split; [exact A|repeat constructor]).
    destruct (d ++ [0xA]) as [|c v]; [exact A1|]. cbn [without_bom]. destruct (c =? 0xFEFF); [now inversion A1|exact A1].
  - rewrite <- EP in *. assert (NP : p <> []) by (rewrite EP; discriminate). destruct SV as [h EH].
    assert (EZ : encode_all (as_sent cr r) = h ++ z).
    { apply (app_inv_head (encode_all (stored bom cr p))). rewrite <- encode_all_app, <- stored_app, <- ET, CZ, EH. now rewrite app_assoc. }
    destruct (unc_from u t U p r ET) as [tr UR]. rewrite ET in SU, AU. apply Forall_app in SU, AU. destruct SU as [SP SR], AU as [AP AR].
    destruct (tail_decoding h (as_sent cr r) (stored_scalars false cr r SR) (sent_assigned false cr r AR) (ex_intro _ z EZ)) as (D & A).
    rewrite EH in X. rewrite <- !app_assoc in X. rewrite (app_assoc (encode_all (as_sent cr2 f))), (app_assoc h) in X.
    assert (NH : new_start f h).
    { destruct NS as [K|[K|K]]; [now left|right; now left|right; right]. intros d DD. destruct (K (stored bom cr p ++ d)) as [w W]; [rewrite EH; now apply decoding_valid; [apply stored_scalars|]|]. exact (unc_from _ _ W (stored bom cr p) d eq_refl). }
    assert (EL : ends_line nel lsps ((utf8_lossy h ++ as_sent cr2 f ++ line_mark cr2) ++ [0xA])).
    { apply (tail_line nel lsps cr2 (as_sent cr r) (as_sent cr tr) h f wf (unc_sent cr r tr UR) (stored_scalars false cr r SR) (ex_intro _ z EZ) UF NH []); [now left|reflexivity]. }
    destruct (colour_damage bom cr cr2 nel lsps p tp _ u2 l _ CP C2 D EL NP) with (4 := X) (5 := RG) (6 := G) as (y & -> & _); [|exact AL| |now exists y].
    + destruct CP as (UP & _). exact (unc_sub _ p tp UP AP).
    + now apply line_settled.
Qed.
End Append.
