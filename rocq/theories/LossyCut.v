(** The lossy conversion of texts that differ in how their lines end, with nothing
    assumed about unassigned characters but how the reads are cut. *)
From Coq Require Import NArith Arith List Bool Lia.
From Verif Require Import Base Ucd Norm Chars TextUtils NormFacts CharFacts SpecText TextFacts PipelineFacts IsoFacts KeepFacts
  Utf8 Utf8Facts Input Output ReadFacts ReadInv ReadSession SpecRead ReadChunk SpecEscape EscapeFacts EscapeRun ReadProps ReadPieces SpecConv ConvFacts DocProps CatProps SpecCat SpecPush PushProps CatPush
  SpecNewlines NewlineProps SpecGap GapProps SpecCut CutProps SpecAsk SpecCertain CertainFacts CertainProps SpecWellCut WellCut Strings SpecString LossyProps SpecLossyCut.
Import ListNotations.
Local Open Scope N_scope.
Local Opaque pipeline.

Theorem lossy_by_lossy : forall v r, lossy v r <-> exists script, lossy_by script v r.
Proof.
  intros v r. split.
  - intros (x & (sc & z & rs & j & t & E & NP & NF & B & H & R & ->) & ->). exists sc. split; [exact E|]. split; [exact NP|]. split; [exact NF|]. split; [exact B|].
    exists (delivered rs). split; [now exists z, rs, j, t|]. now rewrite (ReadProps.received_delivered _ _ _ _ _ _ (wf_new _ _) NF H).
  - intros (sc & E & NP & NF & B & x & (z & rs & j & t & H & R & <-) & ->). exists (delivered rs). split; [|reflexivity].
    exists sc, z, rs, j, t. rewrite (ReadProps.received_delivered _ _ _ _ _ _ (wf_new _ _) NF H). repeat (split; [assumption|]). reflexivity.
Qed.
Lemma lossy_result_inj : forall v x y t, lossy_result v x = Some t -> lossy_result v y = Some t -> x = y.
Proof.
  intros v x y t. unfold lossy_result.
  assert (A : forall (b : bool) a a', (if b then Some a else match last_opt a with Some l => if l =? LF then Some (removelast a) else None | None => None end) = Some t ->
    (if b then Some a' else match last_opt a' with Some l => if l =? LF then Some (removelast a') else None | None => None end) = Some t -> a = a').
  { intros [] a a' H K; [congruence|]. destruct a as [|z a _] using rev_ind; [discriminate|]. destruct a' as [|z' a' _] using rev_ind; [discriminate|].
    rewrite last_opt_snoc in H, K. rewrite removelast_last in H, K. destruct (N.eqb_spec z LF) as [->|]; [|discriminate]. destruct (N.eqb_spec z' LF) as [->|]; [|discriminate]. congruence. }
  destruct v as [|c v]; [cbn; congruence|]. destruct (c =? BOM).
  - destruct (last_opt v) as [l|]; [|congruence]. intros H K. pose proof (A _ _ _ H K) as Q. congruence.
  - destruct (last_opt (c :: v)) as [l|]; [|congruence]. intros H K. exact (A _ _ _ H K).
Qed.
Lemma no_push_read : forall sc, no_push sc -> segments_read sc = [without_bom (stream_text sc)].
Proof. intros sc NP. unfold segments_read. now rewrite (segments_no_push _ NP). Qed.
Theorem lossy_exact : forall s1 s2 v1 v2 r1 r2, lossy_by s1 v1 r1 -> lossy_by s2 v2 r2 -> same_lines v1 v2 -> whole_ends (without_bom v1) (without_bom v2) ->
  well_cut false false s1 -> (r1 = r2 <-> well_cut false false s2).
Proof.
  intros s1 s2 v1 v2 r1 r2 L1 L2 S W C.
  destruct (lossy_ok v1 r1) as (t1 & T1 & _); [apply lossy_by_lossy; eauto|]. destruct (lossy_ok v2 r2) as (t2 & T2 & _); [apply lossy_by_lossy; eauto|].
  destruct L1 as (E1 & NP1 & NF1 & B1 & x1 & G1 & R1). destruct L2 as (E2 & NP2 & NF2 & B2 & x2 & G2 & R2).
  assert (X : x1 = x2 <-> well_cut false false s2).
  { apply (newlines_exact false false s1 s2 x1 x2 G1 G2 B1 B2); [| |exact C]; rewrite !no_push_read, E1, E2 by assumption; constructor; [now apply same_bom|constructor|exact W|constructor]. }
  rewrite <- X, R1, R2, (same_lossy v1 v2 x1 S). split; [|now intros ->]. intro E. rewrite (same_lossy v1 v2 x1 S) in R1.
  apply (lossy_result_inj v2 x1 x2 t1); congruence.
Qed.
