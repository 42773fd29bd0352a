(** The conversion of a stream without pushes does not depend on how it is cut
    into reads. *)
From Coq Require Import NArith Arith List Bool Lia ZifyBool ZifyNat ZifyN.
From Verif Require Import Base Ucd Norm Chars TextTables TextUtils Utf8 Input SpecRead UcdFacts NormFacts CharFacts SpecText TextFacts PipelineFacts IsoFacts Utf8Facts ReadFacts ReadInv ReadSession.
Import ListNotations.
Local Open Scope N_scope.
Arguments N.add : simpl never.
Arguments N.leb : simpl never.
Arguments N.ltb : simpl never.
Arguments N.eqb : simpl never.
Local Opaque pipeline.

(** The text a stream is translated to before isolation and normalization. *)
Definition translate (nel lsps : bool) (s : list N) : list N :=
  let '(o, x) := trans nel lsps (true, Ground true) s in o ++ fst (fin End (last_opt o) x).

Lemma complete_app : forall T o, complete (T ++ o) = complete T ++ complete (incomplete T ++ o) /\ incomplete (T ++ o) = incomplete (incomplete T ++ o).
Proof.
  intros T o. destruct (complete_cases T) as [[E NB]|(a & x & E & HX)].
  - destruct (complete_nb _ NB) as [-> ->]. auto.
  - remember (incomplete T) as I eqn:EI. assert (ET : T = (a ++ [x]) ++ I) by (rewrite <- E, EI; apply blocks_split).
    rewrite E. clear E EI. subst T. rewrite <- app_assoc. set (R := I ++ o).
    destruct (complete_cases R) as [[_ NB]|(b & y & EC & HY)].
    + destruct (complete_nb _ NB) as [E1 E2]. rewrite E1, E2, app_nil_r. unfold complete, incomplete.
      rewrite (last_boundary_intro a x R HX NB). rewrite firstn_app, skipn_app, Nat.sub_diag, firstn_all, skipn_all. cbn. now rewrite app_nil_r.
    + assert (ER : R = (b ++ [y]) ++ incomplete R) by (rewrite <- EC; apply blocks_split).
      pose proof (incomplete_nb R) as NB. remember (incomplete R) as J. rewrite EC. clear EC HeqJ. rewrite ER.
      replace ((a ++ [x]) ++ (b ++ [y]) ++ J) with ((((a ++ [x]) ++ b) ++ [y]) ++ J) by now rewrite <- !app_assoc.
      unfold complete, incomplete. rewrite (last_boundary_intro ((a ++ [x]) ++ b) y J HY NB).
      rewrite firstn_app, skipn_app, Nat.sub_diag, firstn_all, skipn_all. cbn. rewrite app_nil_r. split; [|reflexivity].
      now rewrite app_assoc.
Qed.

Lemma unguarded_prefix : forall a b, unguarded_text (a ++ b) -> unguarded_text a.
Proof. intros a b H x c y ->. apply (H x c (y ++ b)). now rewrite <- app_assoc. Qed.

Lemma pipe_complete : forall T o, unguarded_text (T ++ o) ->
  pipeline (complete T) ++ pipeline (complete (incomplete T ++ o)) = pipeline (complete (T ++ o)).
Proof.
  intros T o U. destruct (complete_app T o) as [-> _].
  destruct (complete_cases T) as [[-> NB]|(a & x & E & HX)]; [now rewrite pipeline_nil|].
  rewrite E. symmetry. apply pipeline_join; [exact HX|]. intros -> c t EC.
  apply (U a c (t ++ incomplete (incomplete T ++ o))). change 0x34F with CGJ.
  rewrite (blocks_split T) at 1. rewrite E, <- !app_assoc. rewrite (blocks_split (incomplete T ++ o)) at 1. now rewrite EC.
Qed.

Lemma boundary_end : forall b, boundary b -> is_basic_text_end b = true.
Proof. intros b [-> | ->]; [exact end_LF|exact end_CGJ]. Qed.

Lemma fin_last : forall s T x, fin s (last_opt (incomplete T)) x = fin s (last_opt T) x.
Proof.
  intros s T x. destruct (complete_cases T) as [[_ NB]|(a & b & E & HB)]; [now rewrite (proj2 (complete_nb _ NB))|].
  rewrite (blocks_split T) at 2. rewrite last_opt_app. destruct (last_opt (incomplete T)) as [y|]; [reflexivity|].
  rewrite E, last_opt_snoc. unfold fin. destruct (is_active s); [reflexivity|].
  destruct (match snd x with Ground _ => _ | _ => _ end) as [o1 x1]. destruct (last_opt o1); [reflexivity|]. now rewrite boundary_end.
Qed.
Lemma last_cut : forall T o, last_opt (incomplete (T ++ o)) = last_opt (incomplete (incomplete T ++ o)).
Proof. intros T o. now rewrite (proj2 (complete_app T o)). Qed.
Lemma fin_last2 : forall s T o x, fin s (last_opt (incomplete T ++ o)) x = fin s (last_opt (T ++ o)) x.
Proof. intros s T o x. rewrite <- fin_last, <- last_cut. apply fin_last. Qed.

Lemma tinv_done : forall T x, tinv [] T x -> is_ground_nl (snd x) = true -> complete T = T.
Proof.
  intros T x I H. destruct (t_nl _ _ _ I H) as [[-> _]|[t ->]]; [reflexivity|]. now apply complete_snoc; left.
Qed.

Definition chunky (e : list N * status) : Prop := snd e = Active.
Lemma feed_go : forall nel lsps evs raw T x new a', Forall chunky evs -> tinv [] T x ->
  let '(o, x') := trans nel lsps x (flat_map fst evs ++ raw) in
  let W := T ++ o ++ fst (fin End (last_opt (T ++ o)) x') in
  unguarded_text W -> feed nel lsps (mkabs (incomplete T) x false) (evs ++ [(raw, End)]) = (new, a') ->
  pipeline (complete T) ++ new = pipeline W.
Proof.
  intros nel lsps evs raw. induction evs as [|[r s] evs IH]; intros T x new a' HC I.
  - cbn [flat_map app]. destruct (trans nel lsps x raw) as [o x'] eqn:ET. intros U H. cbn [feed] in H.
    unfold absorb, pushed in H. cbn [a_res a_ts a_start body] in H. rewrite ET, fin_last2 in H.
    pose proof (trans_inv _ _ _ _ _ _ _ _ I ET) as T1.
    destruct (fin End (last_opt (T ++ o)) x') as [o2 x2] eqn:EF. cbn [fst] in *.
    pose proof (fin_inv _ _ _ _ _ _ T1 EF) as T2. rewrite <- app_assoc in T2.
    injection H as <- _. rewrite app_nil_r, pipe_complete by exact U.
    f_equal. apply (tinv_done _ _ T2). eapply fin_end; eauto.
  - inversion HC as [|? ? H1 H2]; subst. unfold chunky in H1. cbn in H1. subst s.
    cbn [flat_map fst app]. rewrite <- app_assoc, trans_app.
    destruct (trans nel lsps x r) as [o1 x1] eqn:E1. pose proof (trans_inv _ _ _ _ _ _ _ _ I E1) as T1.
    specialize (IH (T ++ o1) x1). destruct (trans nel lsps x1 (flat_map fst evs ++ raw)) as [o2 x2] eqn:E2.
    intros U H. cbn [feed] in H. unfold absorb, pushed in H. cbn [a_res a_ts a_start body] in H. rewrite E1 in H.
    cbn [fin is_active] in H. rewrite app_nil_r in H.
    rewrite <- (proj2 (complete_app T o1)) in H. replace (fst x1, snd x1) with x1 in H by now destruct x1.
    destruct (feed nel lsps (mkabs (incomplete (T ++ o1)) x1 false) (evs ++ [(raw, End)])) as [n2 a2] eqn:EF.
    injection H as <- <-. specialize (IH n2 a2 H2 T1). cbv zeta in IH.
    rewrite <- (app_assoc T o1 o2) in IH. rewrite <- !app_assoc in *. rewrite <- IH; [|exact U|reflexivity]. rewrite <- (pipe_complete T o1).
    + now rewrite <- !app_assoc.
    + apply (unguarded_prefix _ (o2 ++ fst (fin End (last_opt (T ++ o1 ++ o2)) x2))). now rewrite <- app_assoc.
Qed.

Lemma evs_text : forall script, flat_map fst (evs_of script) = stream_text script.
Proof.
  induction script as [|[cs s|] t IH]; cbn; auto. destruct s; cbn; rewrite ?IH, ?app_nil_r; reflexivity.
Qed.
Lemma evs_chunky : forall script, no_push script -> exists evs raw, evs_of script = evs ++ [(raw, End)] /\ Forall chunky evs.
Proof.
  induction script as [|[cs s|] t IH]; intro H; cbn.
  - exists [], []. auto.
  - assert (HT : no_push t) by (intros c Hc; apply (H c); now right). destruct (IH HT) as (e & r & E & F).
    destruct s; [|exfalso; apply (H cs); now left|exists [], cs; auto].
    exists ((cs, Active) :: e), r. rewrite E. split; [reflexivity|now constructor].
  - apply IH. intros c Hc; apply (H c); now right.
Qed.

Lemma tinv_new : tinv [] [] (true, Ground true).
Proof. exact (i_t _ _ ainv_new). Qed.
Lemma incomplete_nil : incomplete [] = []. Proof. reflexivity. Qed.

Definition restart (evs : list (list N * status)) : list (list N * status) :=
  match evs with (r, s) :: t => (body true r, s) :: t | [] => [] end.
Lemma feed_restart : forall nel lsps evs, evs <> [] -> feed nel lsps abs0 evs = feed nel lsps (mkabs [] (true, Ground true) false) (restart evs).
Proof.
  intros nel lsps [|[r s] t] H; [congruence|]. cbn [feed restart]. unfold absorb, pushed, abs0. cbn [a_res a_ts a_start body]. reflexivity.
Qed.

Lemma without_body : forall s, without_bom s = body true s.
Proof. intros [|c s]; reflexivity. Qed.

Lemma restart_text : forall script, bom_visible script -> flat_map fst (restart (evs_of script)) = without_bom (stream_text script).
Proof.
  intros script H. rewrite <- evs_text. rewrite without_body. destruct H as [H|(c & cs & s & t & ->)].
  - assert (G : forall u, flat_map fst (evs_of script) <> BOM :: u) by (intro u; rewrite evs_text; apply H).
    destruct (evs_of script) as [|[r s] e]; [reflexivity|]. cbn [restart flat_map fst] in *.
    assert (E : body true r = r). { destruct r as [|c r]; [reflexivity|]. cbn. destruct (c =? BOM) eqn:EB; [|reflexivity]. apply N.eqb_eq in EB. subst. exfalso. eapply G. reflexivity. }
    rewrite E. remember (r ++ flat_map fst e) as w. destruct w as [|c w]; [reflexivity|]. cbn. destruct (c =? BOM) eqn:EB; [|reflexivity]. apply N.eqb_eq in EB. subst c. exfalso. eapply G. reflexivity.
  - assert (exists e, evs_of (Chunk (c :: cs) s :: t) = (c :: cs, s) :: e) as [e ->] by (destruct s; cbn; eauto).
    cbn. destruct (c =? BOM); reflexivity.
Qed.

Theorem converted_plain : forall nel lsps script, no_push script -> bom_visible script ->
  unguarded_text (translate nel lsps (without_bom (stream_text script))) ->
  converted_stream nel lsps script = pipeline (translate nel lsps (without_bom (stream_text script))).
Proof.
  intros nel lsps script NP BV. rewrite <- (restart_text _ BV). unfold converted_stream.
  destruct (evs_chunky _ NP) as (evs & raw & E & F). rewrite E. rewrite feed_restart by (destruct evs; discriminate).
  assert (exists evs' raw', restart (evs ++ [(raw, End)]) = evs' ++ [(raw', End)] /\ Forall chunky evs') as (evs' & raw' & -> & F').
  { destruct evs as [|[r s] e]; cbn.
    - exists [], (match raw with c :: t => if c =? BOM then t else raw | [] => raw end). auto.
    - exists ((body true r, s) :: e), raw. split; [reflexivity|]. inversion F; subst. now constructor. }
  intro U. destruct (feed nel lsps (mkabs [] (true, Ground true) false) (evs' ++ [(raw', End)])) as [new a'] eqn:EF. cbn [fst].
  pose proof (feed_go nel lsps evs' raw' [] (true, Ground true) new a' F' tinv_new) as G.
  rewrite flat_map_app in U |- *. cbn [flat_map fst] in U |- *. rewrite app_nil_r in U |- *. unfold translate in U |- *.
  destruct (trans nel lsps (true, Ground true) (flat_map fst evs' ++ raw')) as [o x]. cbv zeta in G. cbn [app] in G.
  specialize (G U EF). change (complete []) with (@nil N) in G. rewrite pipeline_nil in G. exact G.
Qed.
