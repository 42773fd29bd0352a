(** Text of later versions of Unicode, written with this one. *)
From Coq Require Import NArith Arith List Bool Lia ZifyBool ZifyNat ZifyN.
From Verif Require Import Base Ucd Norm Chars TextUtils Utf8 Input Output Strings UcdFacts NormFacts CharFacts SpecText SpecRead SpecString SpecEscape TextFacts PipelineFacts IsoFacts EdgeFacts StringFacts StringProps SpecWrite WriteFacts WriteProps FuzzProps Future FutureProps NewerProps NewerPush.
Import ListNotations.
Local Open Scope N_scope.
Arguments N.add : simpl never.
Arguments N.leb : simpl never.
Arguments N.ltb : simpl never.
Arguments N.eqb : simpl never.
Local Opaque pipeline.

Lemma writes_spec : forall ps cr d, failed d = false -> outcomes d = [] -> (fresh d = true -> starts_ok (concat ps)) -> all_clean (concat ps) ->
  let '(bs, d') := spec_ops cr d (map OpWriteStr ps) in
  Forall (fun b => b = true) bs /\ failed d' = false /\ outcomes d' = [] /\ text d' = text d ++ concat (map pipeline ps) /\ sent d' = sent d ++ as_sent cr (concat (map pipeline ps)).
Proof.
  induction ps as [|p ps IH]; intros cr d F O FR C; cbn [map spec_ops concat].
  - destruct cr; cbn; rewrite !app_nil_r; auto.
  - cbn [spec_op]. unfold spec_write. rewrite F. cbn [concat] in *. apply Forall_app in C. destruct C as [C1 C2]. rewrite (proj2 (all_allowed p) C1). cbn [negb]. unfold spec_send. rewrite O.
    assert (K : fresh d && negb (opt_all is_basic_text_start (head_opt (pipeline p))) = false).
    { destruct (fresh d); [|reflexivity]. destruct p as [|c p]; [reflexivity|]. cbn [andb]. apply negb_false_iff.
      rewrite pipeline_first. cbn. exact (FR eq_refl c _ eq_refl). }
    rewrite K. specialize (IH cr (mkdoc (text d ++ pipeline p) (sent d ++ as_sent cr (pipeline p)) false false []) eq_refl eq_refl ltac:(discriminate) C2).
    destruct (spec_ops cr _ (map OpWriteStr ps)) as [bs d']. destruct IH as (I1 & I2 & I3 & I4 & I5). cbn [text sent] in I4, I5. rewrite as_sent_app, I4, I5, <- !app_assoc. auto 8.
Qed.

Lemma pieces_line : forall ps, line_terminated (concat ps) -> line_terminated (concat (map pipeline ps)).
Proof.
  induction ps as [|p ps IH] using rev_ind; intro H; [now left|]. rewrite map_app, !concat_app in *. cbn [map concat] in *. rewrite app_nil_r in *.
  assert (D : p = [] \/ p <> []) by (destruct p; [now left|now right]). destruct D as [->|NP]; [rewrite pipeline_nil, app_nil_r in *; auto|].
  assert (LT : line_terminated p). { destruct H as [H|[u H]]; [apply app_eq_nil in H; destruct H; congruence|]. destruct p as [|x y _] using rev_ind; [congruence|]. rewrite app_assoc in H. apply app_inj_tail in H. destruct H as [_ ->]. right. now exists y. }
  apply pipeline_line in LT. destruct LT as [LT|[u ->]]; [exfalso; apply (pipeline_nonnil p); [exact NP|exact LT]|]. right. exists (concat (map pipeline ps) ++ u). now rewrite app_assoc.
Qed.
Lemma pieces_isolated : forall ps, runs_normal (concat ps) -> all_clean (concat ps) -> inserts CGJ (concat ps) (concat (map pipeline ps)).
Proof.
  induction ps as [|p ps IH]; intros RP CP; [constructor|]. cbn [concat map] in *. apply inserts_app.
  - rewrite runs_isolated; [apply iso_only_adds|now apply Forall_app in CP|]. exact (runs_part [] p (concat ps) RP).
  - apply IH; [|now apply Forall_app in CP]. apply (runs_part p (concat ps) []). now rewrite app_nil_r.
Qed.
Theorem newer_written : forall t cr p ps rs w, later t -> parts_normal t -> normal_in t (concat ps) -> Forall allowed (concat ps) -> starts_ok (concat ps) ->
  do_ops (new_writer cr false (mksink p [] false)) (map OpWriteStr ps) = (rs, w) ->
  Forall (fun r => r = None) rs /\ exists v, inserts 0x34F (concat ps) v /\ emitted (inner w) = p ++ as_sent cr v /\
    (line_terminated (concat ps) -> exists w', close w = (None, w') /\ emitted (inner w') = emitted (inner w)).
Proof.
  intros t cr p ps rs w L P E A S H. apply Forall_allowed_clean in A. pose proof (newer_runs t L _ P E) as R.
  assert (HP : Forall plain_op (map OpWriteStr ps)) by (clear; induction ps; constructor; [exact I|auto]).
  destruct (ops_refine (map OpWriteStr ps) cr _ _ (new_refines cr p []) HP) as [RS RF]. rewrite H in RS, RF. cbn [fst snd] in RS, RF.
  pose proof (writes_spec ps cr (new_doc p []) eq_refl eq_refl (fun _ => S) A) as K. destruct (spec_ops cr (new_doc p []) (map OpWriteStr ps)) as [bs d]. destruct K as (K1 & K2 & K3 & K4 & K5). cbn [new_doc text sent app fst snd] in *.
  split.
  - subst bs. apply Forall_forall. intros r K. rewrite Forall_forall in K1. specialize (K1 _ (in_map ok _ _ K)). now destruct r.
  - exists (concat (map pipeline ps)). split; [now apply pieces_isolated|]. pose proof RF as (_ & _ & _ & EM & _). split; [now rewrite EM, K5|]. intro LT.
    destruct (op_refines cr _ w OpClose RF I) as [RC RF']. cbn [do_op spec_op] in RC, RF'. unfold spec_close in RC, RF'. rewrite K2, K4 in RC, RF'.
    assert (SC : (match last_opt (concat (map pipeline ps)) with Some c => if c =? 10 then spec_call d else (false, fail d) | None => spec_call d end) = spec_call d).
    { destruct (last_opt (concat (map pipeline ps))) as [c|] eqn:EL; [|reflexivity]. apply last_opt_some in EL. destruct EL as [u EL]. destruct (pieces_line ps LT) as [Q|[u' Q]]; rewrite Q in EL; [now destruct u|]. apply app_inj_tail in EL. now destruct EL as [_ <-]. }
    rewrite SC in RC, RF'. unfold spec_call in RC, RF'. rewrite K3 in RC, RF'. destruct (close w) as [[e|] w'] eqn:EC; cbn in RC; [discriminate|]. exists w'. split; [reflexivity|].
    destruct RF' as (_ & _ & _ & EM' & _). cbn in EM'. now rewrite EM', EM.
Qed.
