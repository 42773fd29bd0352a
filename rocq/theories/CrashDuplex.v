(** What a duplexer has sent when its stream fails. *)
From Coq Require Import NArith Arith List Bool Lia ZifyBool ZifyNat ZifyN.
From Verif Require Import Base Ucd UcdTables Norm Chars TextTables TextUtils UcdFacts NormFacts CharFacts DocTable SpecText TextFacts PipelineFacts DocFacts IsoFacts
  Utf8 Utf8Facts SpecUtf8 Utf8Lossy Input Output ReadFacts ReadInv ReadSession SpecRead ReadChunk SpecEscape EscapeFacts EscapeRun ReadProps KeepFacts ReadPieces SpecConv ConvFacts
  SpecWrite WriteFacts WriteProps SpecMore CanonProps SpecCat SpecCrash CrashProps Duplex SpecDuplex DuplexProps Shared SpecShared SharedProps.
Import ListNotations.
Local Open Scope N_scope.
Arguments N.add : simpl never.
Arguments N.leb : simpl never.
Arguments N.ltb : simpl never.
Arguments N.eqb : simpl never.
Local Opaque pipeline.

Lemma side_prefix : forall cr os d rs, Forall plain_dop os -> spec_results cr d os rs -> exists a c, sent (spec_sides cr d os rs) = sent d ++ a /\ (failed d = true -> a = []) /\ as_sent cr (written os) = a ++ c.
Proof.
  intros cr. assert (NX : as_sent cr [] = []) by (destruct cr; reflexivity).
  induction os as [|o os IH]; intros d [|r rs] HP H; try contradiction.
  - exists [], []. rewrite app_nil_r. auto.
  - destruct H as [H1 H2]. cbn [spec_sides]. destruct (IH _ _ (Forall_inv_tail HP) H2) as (a & c & S & F & E). unfold written in *. cbn [map concat]. rewrite as_sent_app, E, S. pose proof (Forall_inv HP) as P. cbn beta in P. destruct o as [b|o].
    + cbn [dop_text spec_side]. rewrite NX. exists a, c. split; [|split; [|reflexivity]]; [now destruct (line_read r)|]. intro K. apply F. cbn [spec_side]. destruct (line_read r); exact K.
    + destruct P as [P NA]. cbn [spec_side dop_text] in *. destruct (spec_op cr d o) as [b d1] eqn:ES. cbn [snd] in *. destruct (spec_stepped _ _ _ _ _ P ES) as (a1 & S1 & [c1 B1] & OK & _ & _ & FD).
      destruct (failed d) eqn:FL.
      * destruct (failed_call _ _ _ _ _ FL NA ES) as [_ SE]. destruct (FD eq_refl) as [F1 _]. rewrite (F F1) in *. exists [], (as_sent cr (op_text o) ++ c). rewrite SE, !app_nil_r. auto.
      * rewrite S1, <- app_assoc. destruct b.
        -- destruct (OK eq_refl) as (-> & _). exists (as_sent cr (op_text o) ++ a), c. rewrite <- !app_assoc. split; [reflexivity|]. split; [discriminate|reflexivity].
        -- destruct (is_write o) eqn:W.
           ++ rewrite (F (write_fails _ _ _ _ W ES)) in *. exists a1, (c1 ++ c). rewrite B1, app_nil_r, <- app_assoc. split; [reflexivity|]. split; [discriminate|reflexivity].
           ++ assert (EN : op_text o = []) by (destruct o; try discriminate; reflexivity). rewrite EN, NX in *. symmetry in B1. apply app_eq_nil in B1. destruct B1 as [-> _]. exists a, c. split; [reflexivity|]. split; [discriminate|reflexivity].
Qed.
Theorem duplex_beginning : forall nel lsps cr p o sc os rs x, do_dops (new_duplexer nel lsps cr false (mksink p o false) sc) os = (rs, x) -> Forall plain_dop os ->
  beginning (emitted (inner (dout x))) (p ++ as_sent cr (written os)).
Proof.
  intros nel lsps cr p o sc os rs x H HP. destruct (duplex_refines _ _ _ _ _ _ _ _ _ H HP) as [S R]. destruct (side_prefix cr os _ rs HP S) as (a & c & E & _ & T). exists c. destruct R as (_ & _ & _ & -> & _). rewrite E, T. cbn [sent new_doc]. now rewrite <- app_assoc.
Qed.
(** The other end reads what has arrived. *)
Theorem duplex_crash : forall nel lsps (bom cr : bool) o sc os rs x nel2 lsps2 b sc2 out, do_dops (new_duplexer nel lsps cr false (mksink (if bom then [0xFEFF] else []) o false) sc) os = (rs, x) -> Forall plain_dop os ->
  let t := written os in substring_ok t -> starts_ok t -> scalars t -> Forall (fun c => is_assigned c = true) t ->
  beginning b (encode_all (emitted (inner (dout x)))) -> lossy_decoding b (stream_text sc2) -> no_push sc2 -> bom_visible sc2 -> gives nel2 lsps2 sc2 out ->
  exists q e, beginning q t /\ out = q ++ e /\ In e repairs /\ string_ok out /\ line_terminated out /\ (forall q', beginning q' t -> survives bom cr q' b -> beginning q' q).
Proof.
  intros nel lsps bom cr o sc os rs x nel2 lsps2 b sc2 out H HP t OK ST SC A B D NP BV G. apply (cut_read bom cr nel2 lsps2 t b sc2 out); auto.
  destruct (duplex_beginning _ _ _ _ _ _ _ _ _ H HP) as [u EU]. destruct B as [v EV]. exists (v ++ encode_all u). rewrite app_assoc, <- EV, <- encode_all_app, <- EU. reflexivity.
Qed.
