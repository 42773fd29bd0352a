(** Without any hypothesis on unassigned characters: the conversion of a stream
    without pushes is the conversion of consecutive pieces of the translated
    text, cut after U+A or U+34F. *)
From Coq Require Import NArith Arith List Bool Lia ZifyBool ZifyNat ZifyN.
From Verif Require Import Base Ucd Norm Chars TextTables TextUtils Utf8 Input SpecRead UcdFacts NormFacts CharFacts SpecText TextFacts PipelineFacts IsoFacts Utf8Facts ReadFacts ReadInv ReadSession ReadChunk KeepFacts.
Import ListNotations.
Local Open Scope N_scope.
Arguments N.add : simpl never.
Arguments N.leb : simpl never.
Arguments N.ltb : simpl never.
Arguments N.eqb : simpl never.
Local Opaque pipeline.

Definition piece (p : list N) : Prop := exists a x, p = a ++ [x] /\ (x = 0xA \/ x = 0x34F).
Lemma complete_piece : forall q, complete q = [] \/ piece (complete q).
Proof. intro q. destruct (complete_cases q) as [[E _]|(a & x & E & HX)]; [now left|right; exists a, x; auto]. Qed.

Definition in_pieces (W out : list N) : Prop := exists ps, concat ps = W /\ Forall piece ps /\ out = concat (map pipeline ps).
Lemma in_pieces_nil : in_pieces [] [].
Proof. exists []. repeat split; constructor. Qed.
Lemma in_pieces_app : forall p W out, p = [] \/ piece p -> in_pieces W out -> in_pieces (p ++ W) (pipeline p ++ out).
Proof.
  intros p W out [-> |HP] (ps & <- & HF & ->); [rewrite pipeline_nil; exists ps; auto|].
  exists (p :: ps). repeat split; auto.
Qed.

Lemma feed_pieces : forall nel lsps evs raw T x new a', Forall chunky evs -> tinv [] T x ->
  let '(o, x') := trans nel lsps x (flat_map fst evs ++ raw) in
  let W := o ++ fst (fin End (last_opt (T ++ o)) x') in
  feed nel lsps (mkabs (incomplete T) x false) (evs ++ [(raw, End)]) = (new, a') ->
  in_pieces (incomplete T ++ W) new.
Proof.
  intros nel lsps evs raw. induction evs as [|[r s] evs IH]; intros T x new a' HC I.
  - cbn [flat_map app]. destruct (trans nel lsps x raw) as [o x'] eqn:ET. intros H. cbn [feed] in H.
    unfold absorb, pushed in H. cbn [a_res a_ts a_start body] in H. rewrite ET, fin_last2 in H.
    pose proof (trans_inv _ _ _ _ _ _ _ _ I ET) as T1.
    destruct (fin End (last_opt (T ++ o)) x') as [o2 x2] eqn:EF. cbn [fst] in *.
    pose proof (fin_inv _ _ _ _ _ _ T1 EF) as T2. rewrite <- app_assoc in T2.
    injection H as <- _. rewrite app_nil_r. pose proof (tinv_done _ _ T2 ltac:(eapply fin_end; eauto)) as CT.
    assert (IN : incomplete (T ++ o ++ o2) = []).
    { pose proof (blocks_split (T ++ o ++ o2)) as B. rewrite CT in B. rewrite <- (app_nil_r (T ++ o ++ o2)) in B at 1. now apply app_inv_head in B. }
    rewrite (proj2 (complete_app T (o ++ o2))) in IN. pose proof (blocks_split (incomplete T ++ o ++ o2)) as B. rewrite IN, app_nil_r in B.
    rewrite B at 1. pose proof (in_pieces_app _ _ _ (complete_piece (incomplete T ++ o ++ o2)) in_pieces_nil) as G. now rewrite !app_nil_r in G.
  - inversion HC as [|? ? H1 H2]; subst. unfold chunky in H1. cbn in H1. subst s.
    cbn [flat_map fst app]. rewrite <- app_assoc, trans_app.
    destruct (trans nel lsps x r) as [o1 x1] eqn:E1. pose proof (trans_inv _ _ _ _ _ _ _ _ I E1) as T1.
    specialize (IH (T ++ o1) x1). destruct (trans nel lsps x1 (flat_map fst evs ++ raw)) as [o2 x2] eqn:E2.
    intros H. cbn [feed] in H. unfold absorb, pushed in H. cbn [a_res a_ts a_start body] in H. rewrite E1 in H.
    cbn [fin is_active] in H. rewrite app_nil_r in H.
    rewrite <- (proj2 (complete_app T o1)) in H. replace (fst x1, snd x1) with x1 in H by now destruct x1.
    destruct (feed nel lsps (mkabs (incomplete (T ++ o1)) x1 false) (evs ++ [(raw, End)])) as [n2 a2] eqn:EF.
    injection H as <- <-. specialize (IH n2 a2 H2 T1). cbv zeta in IH. specialize (IH eq_refl).
    rewrite <- app_assoc in IH. pose proof (in_pieces_app _ _ _ (complete_piece (incomplete T ++ o1)) IH) as G.
    rewrite (proj2 (complete_app T o1)), app_assoc, <- blocks_split in G. now rewrite <- !app_assoc in *.
Qed.

Theorem converted_pieces : forall nel lsps script, no_push script -> bom_visible script ->
  in_pieces (translate nel lsps (without_bom (stream_text script))) (converted_stream nel lsps script).
Proof.
  intros nel lsps script NP BV. rewrite <- (restart_text _ BV). unfold converted_stream.
  destruct (evs_chunky _ NP) as (evs & raw & E & F). rewrite E. rewrite feed_restart by (destruct evs; discriminate).
  assert (exists evs' raw', restart (evs ++ [(raw, End)]) = evs' ++ [(raw', End)] /\ Forall chunky evs') as (evs' & raw' & -> & F').
  { destruct evs as [|[r s] e]; cbn.
    - exists [], (match raw with c :: t => if c =? BOM then t else raw | [] => raw end). auto.
    - exists ((body true r, s) :: e), raw. split; [reflexivity|]. inversion F; subst. now constructor. }
  destruct (feed nel lsps (mkabs [] (true, Ground true) false) (evs' ++ [(raw', End)])) as [new a'] eqn:EF. cbn [fst].
  pose proof (feed_pieces nel lsps evs' raw' [] (true, Ground true) new a' F' tinv_new) as G.
  rewrite flat_map_app. cbn [flat_map fst]. rewrite app_nil_r. unfold translate.
  destruct (trans nel lsps (true, Ground true) (flat_map fst evs' ++ raw')) as [o x]. cbv zeta in G. cbn [app] in G.
  exact (G EF).
Qed.

(** a stream that arrives in one read is converted as a whole *)
Theorem converted_whole : forall nel lsps s, converted_stream nel lsps [Chunk s End] = pipeline (translate nel lsps (without_bom s)).
Proof.
  intros nel lsps s. unfold converted_stream. cbn [evs_of feed]. unfold absorb, pushed, abs0. cbn [a_res a_ts a_start].
  rewrite <- without_body. unfold translate.
  destruct (trans nel lsps (true, Ground true) (without_bom s)) as [o x'] eqn:ET. cbn [app].
  pose proof (trans_inv _ _ _ _ _ _ _ _ tinv_new ET) as T1. cbn [app] in T1.
  destruct (fin End (last_opt o) x') as [o2 x2] eqn:EF. cbn [fst is_active].
  pose proof (fin_inv _ _ _ _ _ _ T1 EF) as T2. rewrite app_nil_r. f_equal. apply (tinv_done _ _ T2). eapply fin_end; eauto.
Qed.

(** nothing is lost between the pieces *)
Lemma pieces_count : forall x W out, kept_char x = true -> in_pieces W out -> count_occ N.eq_dec out x = count_occ N.eq_dec W x.
Proof.
  intros x W out HK (ps & <- & _ & ->). induction ps as [|p ps IH]; [reflexivity|]. cbn. rewrite !count_occ_app, IH. now rewrite pipeline_count.
Qed.
Lemma preceded_app : forall a b, preceded a -> preceded b -> preceded (a ++ b).
Proof.
  intros a b HA HB x c y E HC. apply app_eq_app in E. destruct E as [z [[-> E]|[-> E]]].
  - destruct z as [|d z]; cbn [app] in E.
    + symmetry in E. destruct (HB [] c y E HC) as [a' E']. destruct a'; discriminate.
    + injection E as E1 _. subst d. exact (HA _ _ _ eq_refl HC).
  - destruct (HB _ _ _ E HC) as [a' ->]. exists (a ++ a'). now rewrite app_assoc.
Qed.
Lemma preceded_prefix : forall a b, preceded (a ++ b) -> preceded a.
Proof. intros a b H x c y -> HC. apply (H x c (y ++ b)); [now rewrite <- app_assoc|exact HC]. Qed.
Lemma preceded_nil : preceded [].
Proof. intros [|? ?] c y E; discriminate. Qed.
(** any stream, with pushes and failures *)
Lemma feed_preceded : forall nel lsps evs a new a', feed nel lsps a evs = (new, a') -> preceded new.
Proof.
  induction evs as [|[r s] evs IH]; intros a new a' H; cbn [feed] in H.
  - injection H as <- <-. apply preceded_nil.
  - destruct (absorb nel lsps a r s) as [n1 a1] eqn:E1. destruct (feed nel lsps a1 evs) as [n2 a2] eqn:E2. injection H as <- <-.
    apply preceded_app; [|eapply IH; eauto]. unfold absorb in E1. destruct (pushed nel lsps a r s) as [o x]. injection E1 as <- _. apply pipeline_preceded.
Qed.
Theorem converted_preceded : forall nel lsps script, preceded (converted_stream nel lsps script).
Proof.
  intros nel lsps script. unfold converted_stream. destruct (feed nel lsps abs0 (evs_of script)) as [new a] eqn:E. eapply feed_preceded; eauto.
Qed.
