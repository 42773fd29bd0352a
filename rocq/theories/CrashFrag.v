(** Colour sequences that the application cuts into several writes, on a writer or a duplexer,
    when the stream below fails. *)
From Coq Require Import NArith Arith List Bool Lia ZifyBool ZifyNat ZifyN.
From Verif Require Import Base Ucd UcdTables Norm Chars TextTables TextUtils UcdFacts NormFacts CharFacts DocTable SpecText TextFacts PipelineFacts DocFacts IsoFacts
  Utf8 Utf8Facts SpecUtf8 Input Output ReadFacts SpecRead SpecEscape SpecWrite WriteFacts WriteProps WriteColour SpecMore SpecColour ColourProps SpecCat SpecCrash CrashProps CrashColour SpecFrag FragProps Copy CopyProps Duplex SpecDuplex DuplexProps SpecDuplexColour DuplexColour SpecCrashColour.
Import ListNotations.
Local Open Scope N_scope.
Arguments N.add : simpl never.
Arguments N.leb : simpl never.
Arguments N.ltb : simpl never.
Arguments N.eqb : simpl never.
Local Opaque pipeline.

Lemma fop_step : forall cr h d o b d', spec_fop cr h d o = (b, d') ->
  (failed d = true -> sent d' = sent d /\ failed d' = true) /\ exists a c, sent d' = sent d ++ a /\ as_sent cr (fop_shown h o) = a ++ c /\ (c = [] \/ failed d' = true).
Proof.
  intros cr h d o b d' H.
  assert (CALL : forall r d1, spec_call d = (r, d1) -> sent d1 = sent d /\ failed d1 = failed d) by (intros r d1; unfold spec_call; destruct (outcomes d) as [|[|n] l]; intro SS; injection SS as _ <-; auto).
  assert (NX : as_sent cr [] = []) by now destruct cr.
  assert (N0 : sent d' = sent d -> exists a c, sent d' = sent d ++ a /\ as_sent cr [] = a ++ c /\ (c = [] \/ failed d' = true)) by (intro S; exists [], []; rewrite app_nil_r, NX; auto).
  assert (STAY : forall t, sent d' = sent d -> failed d' = true -> exists a c, sent d' = sent d ++ a /\ as_sent cr t = a ++ c /\ (c = [] \/ failed d' = true)) by (intros t S F; exists [], (as_sent cr t); rewrite app_nil_r; auto).
  destruct o as [f p k|f|s| | |]; cbn [spec_fop] in H; unfold spec_write_text, spec_flush, spec_close in H.
  - destruct (failed d) eqn:F; [injection H as _ <-; split; [auto|]; now apply STAY|]. split; [discriminate|]. destruct (negb _); [injection H as _ <-; now apply STAY|now apply send_stuck in H].
  - cbn [fop_shown]. destruct (failed d) eqn:F; [injection H as _ <-; split; [auto|]; now apply N0|]. split; [discriminate|now apply send_stuck in H].
  - cbn [fop_shown]. destruct (failed d) eqn:F; [injection H as _ <-; split; [auto|]; now apply STAY|]. split; [discriminate|now apply send_stuck in H].
  - cbn [fop_shown]. destruct h as [|k h]; [|injection H as _ <-; split; [auto|now apply N0]]. destruct (failed d) eqn:F; [injection H as _ <-; split; [auto|now apply N0]|]. split; [discriminate|]. apply N0.
    repeat match type of H with (if ?x then _ else _) = _ => destruct x | (match ?x with _ => _ end) = _ => destruct x end; first [now apply CALL in H|now injection H as _ <-].
  - cbn [fop_shown]. destruct h as [|k h]; [|injection H as _ <-; split; [auto|now apply N0]]. destruct (failed d) eqn:F; [injection H as _ <-; split; [auto|now apply N0]|]. split; [discriminate|]. apply N0.
    repeat match type of H with (if ?x then _ else _) = _ => destruct x | (match ?x with _ => _ end) = _ => destruct x end; first [now apply CALL in H|now injection H as _ <-].
  - injection H as _ <-. split; [auto|now apply N0].
Qed.
Lemma step_joined : forall cr (d d1 d2 : doc) t1 t2, (failed d = true -> sent d1 = sent d /\ failed d1 = true) -> (exists a c, sent d1 = sent d ++ a /\ as_sent cr t1 = a ++ c /\ (c = [] \/ failed d1 = true)) ->
  (exists a c, sent d2 = sent d1 ++ a /\ (failed d1 = true -> a = []) /\ as_sent cr t2 = a ++ c) -> exists a c, sent d2 = sent d ++ a /\ (failed d = true -> a = []) /\ as_sent cr (t1 ++ t2) = a ++ c.
Proof.
  intros cr d d1 d2 t1 t2 ST (a1 & c1 & S1 & T1 & K) (a2 & c2 & S2 & Z2 & T2). rewrite as_sent_app, T1.
  assert (Z1 : failed d = true -> a1 = [] /\ failed d1 = true).
  { intro F. destruct (ST F) as [S F1]. split; [|exact F1]. rewrite S in S1. rewrite <- (app_nil_r (sent d)) in S1 at 1. now apply app_inv_head in S1. }
  destruct (failed d1) eqn:F1.
  - exists a1, (c1 ++ as_sent cr t2). rewrite S2, (Z2 eq_refl), app_nil_r, <- !app_assoc. split; [exact S1|]. split; [intro F; now apply Z1|reflexivity].
  - destruct K as [->|K]; [|discriminate]. exists (a1 ++ a2), c2. rewrite S2, S1, T2, app_nil_r, <- !app_assoc. split; [reflexivity|]. split; [intro F; now destruct (Z1 F)|reflexivity].
Qed.
Lemma fops_prefix : forall cr xs h d, exists a c, sent (snd (snd (spec_fops cr h d xs))) = sent d ++ a /\ (failed d = true -> a = []) /\ as_sent cr (fops_shown h xs) = a ++ c.
Proof.
  intros cr. induction xs as [|x xs IH]; intros h d; cbn [spec_fops fops_shown].
  - exists [], []. cbn [snd]. rewrite app_nil_r. destruct cr; auto.
  - destruct (spec_fop cr h d x) as [r d1] eqn:E1. destruct (fop_step _ _ _ _ _ _ E1) as [ST PR]. specialize (IH (left_open h x) d1). destruct (spec_fops cr (left_open h x) d1 xs) as [rs e]. cbn [snd] in *. exact (step_joined cr d d1 _ _ _ ST PR IH).
Qed.
Theorem frag_beginning : forall cr p o xs rs w, do_ops (new_writer cr true (mksink p o false)) (map fop_op xs) = (rs, w) -> fops_ok [] xs -> beginning (emitted (inner w)) (p ++ as_sent cr (fops_shown [] xs)).
Proof.
  intros cr p o xs rs w H HP. pose proof (cut_histories cr p o xs rs w H HP) as K. destruct (fops_prefix cr xs [] (new_doc p o)) as (a & c & S & _ & T). destruct (spec_fops cr [] (new_doc p o) xs) as [bs [h d]]. cbn [snd] in S. destruct K as (_ & -> & _).
  exists c. rewrite S, T. cbn [sent new_doc]. now rewrite <- app_assoc.
Qed.
Lemma dfops_prefix : forall cr xs rs h d, exists a c, sent (snd (spec_dfops cr h d xs rs)) = sent d ++ a /\ (failed d = true -> a = []) /\ as_sent cr (dshown h xs rs) = a ++ c.
Proof.
  intros cr. assert (E0 : forall d : doc, exists a c, sent d = sent d ++ a /\ (failed d = true -> a = []) /\ as_sent cr [] = a ++ c) by (intro d; exists [], []; rewrite app_nil_r; destruct cr; auto).
  induction xs as [|x xs IH]; intros [|r rs] h d; cbn [spec_dfops dshown snd]; try apply E0. specialize (IH rs (dleft_open h x r) (spec_dfop cr h d x r)).
  destruct x as [b|x]; cbn [spec_dfop] in *.
  - cbn [app]. destruct (line_read r); exact IH.
  - destruct (spec_fop cr h d x) as [e d1] eqn:E1. destruct (fop_step _ _ _ _ _ _ E1) as [ST PR]. cbn [snd] in *. exact (step_joined cr d d1 _ _ _ ST PR IH).
Qed.
Theorem duplex_colour_beginning : forall nel lsps cr p o sc xs rs x, do_dops (new_duplexer nel lsps cr true (mksink p o false) sc) (map dfop_op xs) = (rs, x) -> dfops_ok [] xs rs ->
  beginning (emitted (inner (dout x))) (p ++ as_sent cr (dshown [] xs rs)).
Proof.
  intros nel lsps cr p o sc xs rs x H HP. destruct (duplex_colour nel lsps cr p o sc xs rs x H HP) as (_ & E & _). destruct (dfops_prefix cr xs rs [] (new_doc p o)) as (a & c & S & _ & T). exists c. rewrite E, S, T. cbn [sent new_doc]. now rewrite <- app_assoc.
Qed.
Lemma dshown_uncoloured : forall xs rs h, dfops_ok h xs rs -> uncoloured (dshown h xs rs) (concat (concat (map dfop_pieces xs))).
Proof.
  induction xs as [|x xs IH]; intros [|r rs] h K; try contradiction; [exact unc_nil|]. destruct K as [K1 K2]. cbn [dshown map concat]. rewrite concat_app. apply unc_app; [|now apply IH].
  destruct x as [b|x]; [exact unc_nil|]. destruct K1 as [K1 _]. pose proof (fops_uncoloured [x] h (conj K1 I)) as U. cbn [fops_shown map concat] in U. now rewrite !app_nil_r in U.
Qed.
Theorem frag_crash : forall (bom cr : bool) o xs rs w nel lsps b sc out, do_ops (new_writer cr true (mksink (if bom then [0xFEFF] else []) o false)) (map fop_op xs) = (rs, w) -> fops_ok [] xs ->
  let u := fops_shown [] xs in let v := concat (concat (map fop_pieces xs)) in substring_ok v -> starts_ok v -> scalars v -> Forall (fun c => is_assigned c = true) v ->
  beginning b (encode_all (emitted (inner w))) -> lossy_decoding b (stream_text sc) -> no_push sc -> bom_visible sc -> gives nel lsps sc out ->
  exists q e, beginning q v /\ out = q ++ e /\ In e repairs /\ string_ok out /\ line_terminated out /\ (forall u' v', beginning u' u -> uncoloured u' v' -> survives bom cr u' b -> beginning v' q).
Proof.
  intros bom cr o xs rs w nel lsps b sc out H HP u v OK SO SC A B D NP BV G. apply (colour_cut_read bom cr nel lsps u v b sc out); auto; [now apply fops_uncoloured|].
  destruct (frag_beginning _ _ _ _ _ _ H HP) as [c E]. fold u in E. destruct B as [d EB]. unfold cut_off, stored. rewrite E, encode_all_app, EB, <- app_assoc. now eexists.
Qed.
Theorem duplex_colour_crash : forall nel lsps (bom cr : bool) o sc xs rs x nel2 lsps2 b sc2 out, do_dops (new_duplexer nel lsps cr true (mksink (if bom then [0xFEFF] else []) o false) sc) (map dfop_op xs) = (rs, x) -> dfops_ok [] xs rs ->
  let u := dshown [] xs rs in let v := concat (concat (map dfop_pieces xs)) in substring_ok v -> starts_ok v -> scalars v -> Forall (fun c => is_assigned c = true) v ->
  beginning b (encode_all (emitted (inner (dout x)))) -> lossy_decoding b (stream_text sc2) -> no_push sc2 -> bom_visible sc2 -> gives nel2 lsps2 sc2 out ->
  exists q e, beginning q v /\ out = q ++ e /\ In e repairs /\ string_ok out /\ line_terminated out /\ (forall u' v', beginning u' u -> uncoloured u' v' -> survives bom cr u' b -> beginning v' q).
Proof.
  intros nel lsps bom cr o sc xs rs x nel2 lsps2 b sc2 out H HP u v OK SO SC A B D NP BV G. apply (colour_cut_read bom cr nel2 lsps2 u v b sc2 out); auto; [now apply dshown_uncoloured|].
  destruct (duplex_colour_beginning _ _ _ _ _ _ _ _ _ H HP) as [c E]. fold u in E. destruct B as [d EB]. unfold cut_off, stored. rewrite E, encode_all_app, EB, <- app_assoc. now eexists.
Qed.
