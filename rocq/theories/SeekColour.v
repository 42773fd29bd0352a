(** Lines with colours behind a damaged first line, and read from any byte on. *)
From Coq Require Import NArith Arith List Bool Lia ZifyBool ZifyNat ZifyN.
From Verif Require DebugProps.
From Verif Require Import Base Ucd UcdTables Norm Chars TextTables TextUtils UcdFacts NormFacts CharFacts DocTable SpecText TextFacts PipelineFacts DocFacts IsoFacts
  Utf8 Utf8Facts SpecUtf8 Utf8Lossy Input Output ReadFacts ReadInv ReadSession SpecRead ReadChunk SpecEscape EscapeFacts EscapeRun ReadProps KeepFacts ReadPieces SpecConv ConvFacts
  SpecWrite WriteFacts WriteProps Strings StringFacts ConcatFacts EdgeFacts SpecString StringProps ScalarFacts LossyProps SpecMore CanonProps SpecColour ColourProps SpecCat CatProps SpecCrash CrashProps SpecDamage DamageProps CrashColour DamageColour SeekProps.
Import ListNotations.
Local Open Scope N_scope.
Arguments N.add : simpl never.
Arguments N.leb : simpl never.
Arguments N.ltb : simpl never.
Arguments N.eqb : simpl never.
Local Opaque pipeline.


Lemma unc_from : forall u v, uncoloured u v -> forall p q, u = p ++ q -> exists w, uncoloured q w.
Proof.
  intros u v U. induction U as [|c s t HC U IH|ps s t P U IH]; intros p q E.
  - symmetry in E. apply app_eq_nil in E. destruct E as [_ ->]. exists []; exact unc_nil.
  - destruct p as [|p0 p]; [cbn [app] in E; subst q; exists (c :: t); now apply unc_char|]. injection E as _ E. now apply (IH p q).
  - apply app_eq_app in E. destruct E as (l & [[E1 ->]|[_ E2]]); [|now apply (IH l q)].
    destruct p as [|p0 p]; [cbn [app] in E1; subst l; exists t; now apply unc_sgr|]. exists (l ++ t). apply unc_app; [|exact U]. apply unc_text. unfold sgr in E1. injection E1 as _ E1. intro I.
    assert (K : In ESC (0x5B :: ps ++ [0x6D])) by (rewrite E1; apply in_or_app; now right). destruct K as [K|K]; [discriminate|]. apply in_app_or in K. destruct K as [K|[K|[]]]; [|discriminate]. rewrite Forall_forall in P. destruct (P _ K) as [K1 _]. now apply K1.
Qed.
Lemma unc_line : forall u v, uncoloured u v -> forall p q, u = p ++ 0xA :: q -> exists w, uncoloured p w.
Proof.
  intros u v U. induction U as [|c s t HC U IH|ps s t P U IH]; intros p q E.
  - destruct p; discriminate.
  - destruct p as [|p0 p]; [exists []; exact unc_nil|]. injection E as <- E. destruct (IH p q E) as [w W]. exists (c :: w). now apply unc_char.
  - apply app_eq_app in E. destruct E as (l & [[E1 E2]|[E1 E2]]).
    + destruct l as [|x l]; [rewrite app_nil_r in E1; exists []; rewrite <- E1, <- (app_nil_r (sgr ps)); apply unc_sgr; [exact P|exact unc_nil]|]. exfalso. injection E2 as <- _.
      assert (K : In 0xA (sgr ps)) by (rewrite E1; apply in_or_app; right; now left). destruct K as [K|[K|K]]; [discriminate|discriminate|]. apply in_app_or in K. destruct K as [K|[K|[]]]; [|discriminate]. rewrite Forall_forall in P. destruct (P _ K) as [K1 _]. now apply K1.
    + destruct (IH l q E2) as [w W]. exists w. rewrite E1. now apply unc_sgr.
Qed.
Definition calm (x : tstate) : Prop := match snd x with Ground _ | Cr | Ff => True | _ => False end.
Lemma calm_ground : forall i c, c <> 0x1B -> match st (step_ground i c) with Ground _ | Cr | Ff => True | _ => False end.
Proof.
  intros i c N. unfold step_ground. destruct (c =? LF); [exact I|]. destruct (c =? CR); [exact I|]. destruct (c =? FF); [exact I|]. destruct (N.eqb_spec c ESC); [contradiction|]. exact I.
Qed.
Lemma calm_step : forall nel lsps x c, c <> 0x1B -> calm x -> calm (snd (tstep nel lsps x c)).
Proof.
  intros nel lsps [e s] c N C. unfold calm, tstep in *. cbn [snd fst] in *. destruct s; try contradiction; cbn [step st stub snd].
  - now apply calm_ground.
  - destruct (c =? LF); [exact I|now apply calm_ground].
  - destruct (c =? FF); [exact I|now apply calm_ground].
Qed.
Lemma calm_lf : forall nel lsps x, calm x -> snd (snd (tstep nel lsps x 0xA)) = Ground true.
Proof. intros nel lsps [e s] C. destruct s; try contradiction; reflexivity. Qed.
Lemma calm_esc : forall nel lsps x, calm x -> snd (snd (tstep nel lsps x 0x1B)) = Esc.
Proof. intros nel lsps [e s] C. destruct s; try contradiction; reflexivity. Qed.
Lemma run_end : forall nel lsps x c s, snd (snd (run nel lsps x (c :: s))) = snd (snd (run nel lsps (snd (tstep nel lsps x c)) s)).
Proof. intros nel lsps x c s. rewrite run_cons. destruct (tstep nel lsps x c) as [o x']. cbn [snd]. now destruct (run nel lsps x' s). Qed.
Lemma csi_end : forall nel lsps ps x s, Forall parameter ps -> snd x = Csi \/ snd x = CsiStart -> exists y, calm y /\ snd (snd (run nel lsps x ((ps ++ [0x6D]) ++ s))) = snd (snd (run nel lsps y s)).
Proof.
  intros nel lsps ps. induction ps as [|p ps IH]; intros [e t] s P K; cbn [snd] in K.
  - cbn [app]. rewrite run_end. exists (snd (tstep nel lsps (e, t) 0x6D)). split; [|reflexivity]. destruct K as [-> | ->]; exact I.
  - cbn [app]. rewrite run_end. apply IH; [exact (Forall_inv_tail P)|]. left. pose proof (Forall_inv P) as PP. unfold parameter in PP. assert (R : in_range p 0x20 0x3F = true) by (unfold in_range; lia).
    destruct K as [-> | ->]; unfold tstep; cbn [step st stub snd fst]; [now rewrite R|]. replace (p =? 0x5B) with false by (symmetry; apply N.eqb_neq; lia). now rewrite R.
Qed.
Lemma unc_run : forall nel lsps u v, uncoloured u v -> forall x, calm x -> snd (snd (run nel lsps x (u ++ [0xA]))) = Ground true.
Proof.
  intros nel lsps u v U. induction U as [|c s t HC U IH|ps s t P U IH]; intros x C.
  - cbn [app]. rewrite run_end, run_nil. pose proof (calm_lf nel lsps x C) as K. destruct (snd (tstep nel lsps x 0xA)) as [e z]. cbn [snd] in K. subst z. reflexivity.
  - cbn [app]. rewrite run_end. apply IH. now apply calm_step.
  - unfold sgr. cbn [app]. rewrite run_end. pose proof (calm_esc nel lsps x C) as K. destruct (snd (tstep nel lsps x 0x1B)) as [e z]. cbn [snd] in K. subst z. rewrite run_end, <- app_assoc.
    destruct (csi_end nel lsps ps (snd (tstep nel lsps (e, Esc) 0x5B)) (s ++ [0xA]) P) as (y & CY & EY); [now right|]. rewrite EY. now apply IH.
Qed.
Lemma unc_ends : forall nel lsps d w, uncoloured d w -> ends_line nel lsps (d ++ [0xA]).
Proof. intros nel lsps d w U. apply line_run. now apply (unc_run nel lsps d w U). Qed.
Lemma bom_line : forall d, exists p x, without_bom (d ++ [0xA]) = x ++ [0xA] /\ d = p ++ x /\ (p = [] \/ p = [0xFEFF]).
Proof.
  intros [|c d']; [exists [], []; cbn; auto|]. cbn [app without_bom]. destruct (N.eqb_spec c 0xFEFF) as [->|_]; [exists [0xFEFF], d'; cbn; auto|exists [], (c :: d'); cbn; auto].
Qed.
Lemma unc_first : forall nel lsps d w, uncoloured d w -> ends_line nel lsps (without_bom (d ++ [0xA])).
Proof. intros nel lsps d w U. destruct (bom_line d) as (p & x & -> & E & _). destruct (unc_from d w U p x E) as [w' W]. exact (unc_ends nel lsps x w' W). Qed.

Lemma coloured_start : forall t2 r2 rd, concat r2 = t2 -> (r2 = [] \/ last_opt r2 = Some [0xA]) -> last_opt rd = Some [0xA] -> pipeline t2 = t2 ->
  exists y, pipeline (made (rd ++ r2)) = y ++ 0xA :: t2 /\ pipeline (made rd) = y ++ [0xA].
Proof.
  intros t2 r2 rd E2 LR2 LD P2. rewrite !made_line; [|exact LD|destruct LR2 as [->|LR]; [now rewrite app_nil_r|now apply last_after]]. rewrite concat_app, E2. destruct (last_line rd LD) as [v ->]. rewrite <- app_assoc.
  assert (G : exists w, forall z, guard_start (v ++ 0xA :: z) = w ++ LF :: z).
  { destruct v as [|c v]; [exists []; reflexivity|]. cbn [app guard_start]. destruct (is_basic_text_start c); [exists (c :: v)|exists (0x34F :: c :: v)]; reflexivity. }
  destruct G as [w G]. cbn [app]. rewrite !G, !pipeline_LF, P2. exists (pipeline w). split; [reflexivity|]. now replace (pipeline []) with (@nil N) by (vm_compute; reflexivity).
Qed.
Section First.
Variables (cr2 nel lsps : bool) (g u2 t2 d : list N).
Hypotheses (C2 : coloured_lines u2 t2) (D : lossy_decoding g d) (EL : ends_line nel lsps (without_bom (d ++ [0xA]))).
Lemma coloured_first : exists rd r2, replaced true (char_rep nel lsps) (without_bom (d ++ [0xA])) rd /\ last_opt rd = Some [0xA] /\ concat r2 = t2 /\ (r2 = [] \/ last_opt r2 = Some [0xA]) /\
  replaced true (char_rep nel lsps) (without_bom (d ++ 0xA :: as_sent cr2 u2)) (rd ++ r2).
Proof.
  destruct EL as (x0 & rd & _ & RD & LD). destruct (lines_replaced cr2 nel lsps u2 t2 C2) as (r2 & R2 & E2 & K2). exists rd, r2. split; [exact RD|]. split; [exact LD|]. split; [exact E2|]. split; [tauto|].
  destruct (bom_line d) as (p & x & EX & _ & _). change (d ++ 0xA :: as_sent cr2 u2) with (d ++ [0xA] ++ as_sent cr2 u2). rewrite app_assoc, (without_bom_cat _ _ _ EX). apply replaced_app; [exact RD|now exists x|exact LD|exact R2].
Qed.
Lemma first_decoding : forall x, lossy_decoding (g ++ [0xA] ++ encode_all (as_sent cr2 u2)) x -> x = d ++ 0xA :: as_sent cr2 u2.
Proof.
  intros x X. destruct C2 as (U2 & _ & _ & _ & S2). replace (d ++ 0xA :: as_sent cr2 u2) with (stored false false [] ++ d ++ 0xA :: as_sent cr2 u2) by reflexivity.
  apply (damage_decoding false false cr2 [] g u2 d x); [constructor|exact (unc_scalars _ _ U2 S2)|exact D|exact X].
Qed.
Theorem colour_first_at_once : forall x o, preceded t2 -> lossy_decoding (g ++ [0xA] ++ encode_all (as_sent cr2 u2)) x ->
  gives nel lsps [Chunk x End] o -> exists y, o = y ++ 0xA :: t2 /\ forall z, gives nel lsps [Chunk (d ++ [0xA]) End] z -> z = y ++ [0xA].
Proof.
  intros x o P2 X G. destruct coloured_first as (rd & r2 & RD & LD & E2 & K2 & R). rewrite <- (first_decoding x X) in R. apply (gives_once_made _ _ _ _ _ G) in R. destruct C2 as (U2 & LU2 & O2 & L2 & S2).
  destruct (coloured_start t2 r2 rd E2 K2 LD (ok_pipeline t2 O2 P2)) as (y & Y1 & Y2). exists y. split; [congruence|]. intros z Z. apply (gives_once_made _ _ _ _ _ Z) in RD. congruence.
Qed.
Theorem colour_first : Forall (fun c => is_assigned c = true) t2 -> forall sc o, settled nel lsps (without_bom (d ++ [0xA])) -> lossy_decoding (g ++ [0xA] ++ encode_all (as_sent cr2 u2)) (stream_text sc) -> regular sc ->
  gives nel lsps sc o -> exists y, o = y ++ 0xA :: t2 /\ forall z, gives nel lsps [Chunk (d ++ [0xA]) End] z -> z = y ++ [0xA].
Proof.
  intros A2 sc o ST X RG G. destruct coloured_first as (rd & r2 & RD & LD & E2 & K2 & R). pose proof (ST _ RD) as U. rewrite <- (first_decoding _ X) in R. destruct C2 as (U2 & LU2 & O2 & L2 & S2).
  apply (gives_made _ _ _ _ _ G RG) in R; [|rewrite concat_app, E2; apply (unguarded_around []); auto].
  destruct (coloured_start t2 r2 rd E2 K2 LD (ok_pipeline t2 O2 (assigned_preceded _ A2))) as (y & Y1 & Y2). exists y. split; [congruence|]. intros z Z. apply (gives_once_made _ _ _ _ _ Z) in RD. congruence.
Qed.
End First.

Lemma params_sent : forall ps, Forall parameter ps -> as_sent true ps = ps.
Proof.
  induction 1 as [|c l K P IH]; [reflexivity|]. change (c :: l) with ([c] ++ l). rewrite as_sent_app, IH. cbn. unfold parameter in K. replace (c =? 10) with false by (symmetry; apply N.eqb_neq; lia). reflexivity.
Qed.
Lemma unc_sent : forall cr u v, uncoloured u v -> uncoloured (as_sent cr u) (as_sent cr v).
Proof.
  intros [|] u v U; [|exact U]. induction U as [|c s t HC U IH|ps s t P U IH]; [exact unc_nil| |].
  - change (c :: s) with ([c] ++ s). change (c :: t) with ([c] ++ t). rewrite !as_sent_app. apply unc_app; [|exact IH]. cbn. destruct (c =? 10); [apply unc_char; [discriminate|]; apply unc_char; [discriminate|exact unc_nil]|apply unc_char; [exact HC|exact unc_nil]].
  - rewrite as_sent_app. replace (as_sent true (sgr ps)) with (sgr ps); [now apply unc_sgr|]. unfold sgr. change (0x1B :: 0x5B :: ps ++ [0x6D]) with ([0x1B; 0x5B] ++ ps ++ [0x6D]). rewrite !as_sent_app. change (as_sent true [0x1B; 0x5B]) with [0x1B; 0x5B]. change (as_sent true [0x6D]) with [0x6D]. now rewrite params_sent.
Qed.
Lemma unc_stored : forall bom cr u v, uncoloured u v -> exists w, uncoloured (stored bom cr u) w.
Proof. intros bom cr u v U. unfold stored. destruct bom; cbn [app]; [|exists (as_sent cr v); now apply unc_sent]. exists (0xFEFF :: as_sent cr v). apply unc_char; [discriminate|now apply unc_sent]. Qed.
Lemma parameter_assigned : forall c, parameter c -> is_assigned c = true.
Proof.
  intros c K. assert (T : forall n, (n < 32)%nat -> is_assigned (0x20 + N.of_nat n) = true) by (intros n H; do 32 (destruct n as [|n]; [vm_compute; reflexivity|]); lia).
  unfold parameter in K. specialize (T (N.to_nat (c - 0x20)) ltac:(lia)). rewrite N2Nat.id in T. replace (0x20 + (c - 0x20)) with c in T by lia. exact T.
Qed.
Lemma unc_assigned : forall u v, uncoloured u v -> Forall (fun c => is_assigned c = true) v -> Forall (fun c => is_assigned c = true) u.
Proof.
  intros u v U. induction U as [|c s t HC U IH|ps s t P U IH]; intro A; [constructor| |].
  - constructor; [exact (Forall_inv A)|exact (IH (Forall_inv_tail A))].
  - apply Forall_app. split; [|exact (IH A)]. unfold sgr. apply Forall_cons; [vm_compute; reflexivity|]. apply Forall_cons; [vm_compute; reflexivity|]. apply Forall_app. split; [|apply Forall_cons; [vm_compute; reflexivity|constructor]].
    eapply Forall_impl; [|exact P]. exact parameter_assigned.
Qed.
Section Seek.
Variables (bom cr nel lsps : bool) (u t u2 l z g : list N).
Hypotheses (U : uncoloured u t) (ST : scalars t) (C2 : coloured_lines u2 l) (CUT : encode_all (stored bom cr u) = z ++ g ++ [0xA] ++ encode_all (as_sent cr u2)).
Lemma seek_text : exists p q n d, lossy_decoding g d /\ stored bom cr u = p ++ q /\ d ++ 0xA :: as_sent cr u2 = repeat 0xFFFD n ++ q.
Proof.
  assert (X : lossy_decoding (g ++ [0xA] ++ encode_all (as_sent cr u2)) (utf8_lossy g ++ 0xA :: as_sent cr u2)).
  { cbn [app]. apply decoding_parts; [lia|apply utf8_lossy_spec|]. destruct C2 as (U2 & _ & _ & _ & S2). pose proof (decoding_valid (as_sent cr u2) [] [] (stored_scalars false cr u2 (unc_scalars _ _ U2 S2)) decoding_nil) as K. now rewrite !app_nil_r in K. }
  destruct (from_decoding _ z _ _ (stored_scalars bom cr u (unc_scalars _ _ U ST)) CUT X) as (p & q & n & E & EX). exists p, q, n, (utf8_lossy g). split; [apply utf8_lossy_spec|]. now split.
Qed.
Lemma seek_line : exists d w, lossy_decoding g d /\ uncoloured d w /\ (Forall (fun c => is_assigned c = true) t -> Forall (fun c => is_assigned c = true) (d ++ [0xA])).
Proof.
  destruct seek_text as (p & q & n & d & D & E & EX). destruct (unc_stored bom cr u t U) as [w W]. destruct (unc_from _ _ W p q E) as [w' W'].
  assert (WN : exists y, uncoloured (repeat 0xFFFD n ++ q) y) by (clear - W'; induction n as [|n [y Y]]; [now exists w'|exists (0xFFFD :: y); cbn [repeat app]; apply unc_char; [discriminate|exact Y]]).
  destruct WN as [y Y]. rewrite <- EX in Y. destruct (unc_line _ _ Y d (as_sent cr u2) eq_refl) as [w2 W2]. exists d, w2. split; [exact D|]. split; [exact W2|]. intro A.
  pose proof (sent_assigned bom cr u (unc_assigned u t U A)) as AS. rewrite E in AS. apply Forall_app in AS. destruct AS as [_ AS].
  assert (K : Forall (fun c => is_assigned c = true) (d ++ 0xA :: as_sent cr u2)).
  { rewrite EX. apply Forall_app. split; [|exact AS]. clear. induction n; [constructor|]. constructor; [vm_compute; reflexivity|assumption]. }
  apply Forall_app in K. destruct K as [K _]. apply Forall_app. split; [exact K|repeat constructor].
Qed.
Theorem colour_seek : Forall (fun c => is_assigned c = true) t -> Forall (fun c => is_assigned c = true) l -> forall sc o, lossy_decoding (g ++ [0xA] ++ encode_all (as_sent cr u2)) (stream_text sc) -> regular sc -> gives nel lsps sc o -> exists y, o = y ++ 0xA :: l.
Proof.
  intros A AL sc o X RG G. destruct seek_line as (d & w & D & W & AD). specialize (AD A).
  destruct (colour_first cr nel lsps g u2 l d C2 D (unc_first nel lsps d w W) AL sc o) with (2 := X) (3 := RG) (4 := G) as (y & -> & _); [|now exists y].
  intros rs R. apply (unguarded_assigned _ _ _ _ R). destruct (d ++ [0xA]) as [|c v]; [exact AD|]. cbn [without_bom]. destruct (c =? 0xFEFF); [now inversion AD|exact AD].
Qed.
Theorem colour_seek_at_once : forall x o, preceded l -> lossy_decoding (g ++ [0xA] ++ encode_all (as_sent cr u2)) x -> gives nel lsps [Chunk x End] o -> exists y, o = y ++ 0xA :: l.
Proof.
  intros x o P X G. destruct seek_line as (d & w & D & W & _). destruct (colour_first_at_once cr nel lsps g u2 l d C2 D (unc_first nel lsps d w W) x o P X G) as (y & -> & _). now exists y.
Qed.
End Seek.
