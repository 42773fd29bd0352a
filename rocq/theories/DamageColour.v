(** Damaged lines among lines with colours. *)
From Coq Require Import NArith Arith List Bool Lia ZifyBool ZifyNat ZifyN.
From Verif Require DebugProps.
From Verif Require Import Base Ucd UcdTables Norm Chars TextTables TextUtils UcdFacts NormFacts CharFacts DocTable SpecText TextFacts PipelineFacts DocFacts IsoFacts
  Utf8 Utf8Facts SpecUtf8 Utf8Lossy Input Output ReadFacts ReadInv ReadSession SpecRead ReadChunk SpecEscape EscapeFacts EscapeRun ReadProps KeepFacts ReadPieces SpecConv ConvFacts
  SpecWrite WriteFacts WriteProps Strings StringFacts ConcatFacts EdgeFacts SpecString StringProps ScalarFacts LossyProps SpecMore CanonProps SpecColour ColourProps SpecCat CatProps SpecCrash CrashProps SpecDamage DamageProps CrashColour.
Import ListNotations.
Local Open Scope N_scope.
Arguments N.add : simpl never.
Arguments N.leb : simpl never.
Arguments N.ltb : simpl never.
Arguments N.eqb : simpl never.
Local Opaque pipeline.

Lemma last_after : forall a r : list (list N), last_opt r = Some [0xA] -> last_opt (a ++ r) = Some [0xA].
Proof. intros a r L. destruct r as [|z r] using rev_ind; [discriminate|]. rewrite last_opt_snoc in L. rewrite app_assoc, last_opt_snoc. exact L. Qed.
Lemma lines_replaced : forall cr nel lsps u v, coloured_lines u v -> exists rs, replaced true (char_rep nel lsps) (as_sent cr u) rs /\ concat rs = v /\ (u = [] /\ rs = [] \/ last_opt rs = Some [0xA]).
Proof.
  intros cr nel lsps u v (U & LT & OK & _). destruct (coloured_replaced cr nel lsps u v U (whole_clean v OK)) as (rs & R & E & L). exists rs. split; [exact R|]. split; [exact E|].
  specialize (L LT). unfold needs_newline, last_nl in L. destruct (last_opt rs) as [r|] eqn:LR.
  - right. unfold is_LF in L. destruct r as [|c [|c' r]]; try discriminate. apply negb_false_iff, N.eqb_eq in L. now subst c.
  - left. apply last_opt_none in LR. subst rs. split; [|reflexivity]. destruct LT as [|[w EW]]; [assumption|]. destruct (unc_last u v U w EW) as [z EZ]. cbn in E. rewrite <- E in EZ. destruct z; discriminate.
Qed.
Lemma lines_text : forall u v, coloured_lines u v -> line_terminated v.
Proof. intros u v (_ & _ & _ & L & _). exact L. Qed.
Section Texts.
Variables (t1 t2 : list N) (r1 r2 rd : list (list N)).
Hypotheses (E1 : concat r1 = t1) (E2 : concat r2 = t2) (L1 : line_terminated t1) (LR2 : r2 = [] \/ last_opt r2 = Some [0xA]) (LD : last_opt rd = Some [0xA]) (P1 : pipeline t1 = t1) (P2 : pipeline t2 = t2) (N1 : t1 <> []) (S1 : starts_ok t1).
Lemma coloured_middle : exists y, pipeline (made (r1 ++ rd ++ r2)) = t1 ++ y ++ 0xA :: t2 /\ pipeline (made ([0xA] :: rd)) = 0xA :: y ++ [0xA].
Proof.
  assert (LL : last_opt (rd ++ r2) = Some [0xA]) by (destruct LR2 as [->|LR]; [now rewrite app_nil_r|now apply last_after]).
  rewrite !made_line; [|exact (last_after [[0xA]] rd LD)|now apply last_after]. rewrite !concat_app, E1, E2. cbn [concat].
  destruct (last_line rd LD) as [v ->]. destruct L1 as [|[u EU]]; [contradiction|]. change [LF] with [0xA] in EU.
  assert (EU2 : u = pipeline u).
  { rewrite EU in P1. change (u ++ [0xA]) with (u ++ LF :: []) in P1. rewrite pipeline_LF in P1. replace (pipeline []) with (@nil N) in P1 by (vm_compute; reflexivity). change [LF] with [0xA] in P1. change (u ++ LF :: []) with (u ++ [0xA]) in P1. apply app_inj_tail in P1. now destruct P1. }
  exists (pipeline v). split.
  - rewrite start_id.
    + rewrite EU at 1. rewrite <- !app_assoc. cbn [app]. change (u ++ 0xA :: v ++ 0xA :: t2) with (u ++ LF :: v ++ LF :: t2). rewrite !pipeline_LF, P2, <- EU2. rewrite EU, <- app_assoc. reflexivity.
    + destruct t1 as [|c t]; [contradiction|]. intros c' z E. injection E as <- _. exact (S1 c t eq_refl).
  - change (guard_start ([0xA] ++ v ++ [0xA])) with (if is_basic_text_start 0xA then [0xA] ++ v ++ [0xA] else 0x34F :: [0xA] ++ v ++ [0xA]). replace (is_basic_text_start 0xA) with true by (vm_compute; reflexivity).
    change ([0xA] ++ v ++ [0xA]) with ([] ++ LF :: v ++ LF :: []). rewrite !pipeline_LF. replace (pipeline []) with (@nil N) by (vm_compute; reflexivity). reflexivity.
Qed.
End Texts.
Section Middle.
Variables (bom cr cr2 nel lsps : bool) (u1 t1 g u2 t2 d : list N).
Hypotheses (C1 : coloured_lines u1 t1) (C2 : coloured_lines u2 t2) (D : lossy_decoding g d) (EL : ends_line nel lsps (d ++ [0xA])) (N1 : u1 <> []).
Lemma coloured_around : exists r1 rd r2, replaced true (char_rep nel lsps) (d ++ [0xA]) rd /\ last_opt rd = Some [0xA] /\ concat r1 = t1 /\ concat r2 = t2 /\ (r2 = [] \/ last_opt r2 = Some [0xA]) /\
  replaced true (char_rep nel lsps) (without_bom (stored bom cr u1 ++ d ++ 0xA :: as_sent cr2 u2)) (r1 ++ rd ++ r2).
Proof.
  destruct EL as (x0 & rd & _ & RD & LD). destruct (lines_replaced cr nel lsps u1 t1 C1) as (r1 & R1 & E1 & K1), (lines_replaced cr2 nel lsps u2 t2 C2) as (r2 & R2 & E2 & K2).
  destruct K1 as [[K1 _]|K1]; [contradiction|]. exists r1, rd, r2. split; [exact RD|]. split; [exact LD|]. split; [exact E1|]. split; [exact E2|]. split; [tauto|].
  destruct C1 as (U1 & [|[w EW]] & O1 & _ & _); [contradiction|].
  assert (EB : without_bom (stored bom cr u1 ++ d ++ 0xA :: as_sent cr2 u2) = as_sent cr u1 ++ d ++ 0xA :: as_sent cr2 u2).
  { unfold stored. rewrite <- app_assoc. destruct bom; [reflexivity|]. cbn [app]. apply without_bom_none. intros t K.
    destruct (as_sent cr u1) as [|c s] eqn:ES; [destruct (sent_ends cr w) as [z Z]; change [LF] with [0xA] in EW; rewrite <- EW, ES in Z; destruct z; discriminate|].
    apply (unc_no_bom cr u1 t1 [] U1 (whole_clean t1 O1)) with (t := s); [discriminate|]. rewrite app_nil_r, ES. injection K as -> _. reflexivity. }
  rewrite EB. apply replaced_app; [exact R1|change [LF] with [0xA] in EW; rewrite EW; apply sent_ends|exact K1|].
  change (d ++ 0xA :: as_sent cr2 u2) with (d ++ [0xA] ++ as_sent cr2 u2). rewrite app_assoc. apply replaced_app; [exact RD|now exists d|exact LD|exact R2].
Qed.
Lemma text_nonempty : t1 <> [].
Proof. intro K. destruct C1 as (U1 & [|[w EW]] & _); [contradiction|]. destruct (unc_last u1 t1 U1 w EW) as [z EZ]. rewrite K in EZ. destruct z; discriminate. Qed.
Theorem colour_damage_at_once : forall x o, preceded t1 -> preceded t2 -> lossy_decoding (with_damage bom cr cr2 u1 g u2) x ->
  gives nel lsps [Chunk x End] o -> exists y, o = t1 ++ y ++ 0xA :: t2 /\ forall z, gives nel lsps [Chunk (0xA :: d ++ [0xA]) End] z -> z = 0xA :: y ++ [0xA].
Proof.
  intros x o P1 P2 X G. destruct coloured_around as (r1 & rd & r2 & RD & LD & E1 & E2 & K2 & R). pose proof text_nonempty as NE. destruct C1 as (U1 & LU1 & O1 & L1 & S1), C2 as (U2 & LU2 & O2 & L2 & S2).
  rewrite <- (damage_decoding bom cr cr2 u1 g u2 d x (unc_scalars _ _ U1 S1) (unc_scalars _ _ U2 S2) D X) in R. apply (gives_once_made _ _ _ _ _ G) in R. apply replaced_lf in RD.
  destruct (coloured_middle t1 t2 r1 r2 rd E1 E2 L1 K2 LD (ok_pipeline t1 O1 P1) (ok_pipeline t2 O2 P2) NE (starts_string t1 O1)) as (y & Y1 & Y2). exists y. split; [congruence|]. intros z Z. apply (gives_once_made _ _ _ _ _ Z) in RD. congruence.
Qed.
Theorem colour_damage : Forall (fun c => is_assigned c = true) t1 -> Forall (fun c => is_assigned c = true) t2 -> forall sc o, settled nel lsps (d ++ [0xA]) -> lossy_decoding (with_damage bom cr cr2 u1 g u2) (stream_text sc) -> regular sc ->
  gives nel lsps sc o -> exists y, o = t1 ++ y ++ 0xA :: t2 /\ forall z, gives nel lsps [Chunk (0xA :: d ++ [0xA]) End] z -> z = 0xA :: y ++ [0xA].
Proof.
  intros A1 A2 sc o ST X RG G. destruct coloured_around as (r1 & rd & r2 & RD & LD & E1 & E2 & K2 & R). pose proof (ST _ RD) as U. pose proof text_nonempty as NE. destruct C1 as (U1 & LU1 & O1 & L1 & S1), C2 as (U2 & LU2 & O2 & L2 & S2).
  rewrite <- (damage_decoding bom cr cr2 u1 g u2 d _ (unc_scalars _ _ U1 S1) (unc_scalars _ _ U2 S2) D X) in R. apply (gives_made _ _ _ _ _ G RG) in R; [|rewrite !concat_app, E1, E2; apply unguarded_around; auto]. apply replaced_lf in RD.
  destruct (coloured_middle t1 t2 r1 r2 rd E1 E2 L1 K2 LD (ok_pipeline t1 O1 (assigned_preceded _ A1)) (ok_pipeline t2 O2 (assigned_preceded _ A2)) NE (starts_string t1 O1)) as (y & Y1 & Y2). exists y. split; [congruence|]. intros z Z. apply (gives_once_made _ _ _ _ _ Z) in RD. congruence.
Qed.
End Middle.
