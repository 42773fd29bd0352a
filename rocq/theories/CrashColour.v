(** Text with colours that is cut off. *)
From Coq Require Import NArith Arith List Bool Lia ZifyBool ZifyNat ZifyN.
From Verif Require DebugProps.
From Verif Require Import Base Ucd UcdTables Norm Chars TextTables TextUtils UcdFacts NormFacts CharFacts DocTable SpecText TextFacts PipelineFacts DocFacts IsoFacts
  Utf8 Utf8Facts SpecUtf8 Utf8Lossy Input Output ReadFacts ReadInv ReadSession SpecRead ReadChunk SpecEscape EscapeFacts EscapeRun ReadProps KeepFacts ReadPieces SpecConv ConvFacts
  SpecWrite WriteFacts WriteProps Strings StringFacts ConcatFacts EdgeFacts SpecString StringProps ScalarFacts LossyProps SpecMore CanonProps SpecColour ColourProps SpecCat CatProps SpecCrash CrashProps.
Import ListNotations.
Local Open Scope N_scope.
Arguments N.add : simpl never.
Arguments N.leb : simpl never.
Arguments N.ltb : simpl never.
Arguments N.eqb : simpl never.
Local Opaque pipeline.

(** * Where coloured text can be cut *)
Definition unfinished (z : list N) : Prop := z = [] \/ z = [0x1B] \/ exists ps, Forall parameter ps /\ z = 0x1B :: 0x5B :: ps.
Lemma sgr_cut : forall ps p l, Forall parameter ps -> sgr ps = p ++ l -> l <> [] -> unfinished p /\ (p <> [] -> exists c l', l = c :: l' /\ c < 0x80 /\ c <> 0xA).
Proof.
  intros ps p l H E NL. unfold sgr in E. destruct p as [|x [|y a]].
  - split; [now left|congruence].
  - injection E as <- E. split; [right; now left|]. intros _. rewrite <- E. eexists _, _. split; [reflexivity|]. lia.
  - cbn [app] in E. injection E as <- <- E. destruct l as [|z l] using rev_ind; [congruence|]. clear IHl. rewrite app_assoc in E. apply app_inj_tail in E. destruct E as [E <-]. rewrite E in H. apply Forall_app in H. destruct H as [H1 H2].
    split; [right; right; now exists a|]. intros _. destruct l as [|c l]; [exists 0x6D, []; split; [reflexivity|lia]|]. exists c, (l ++ [0x6D]). split; [reflexivity|]. pose proof (Forall_inv H2) as K. unfold parameter in K. lia.
Qed.
Lemma unc_cut : forall u v, uncoloured u v -> forall p r, u = p ++ r -> exists p' z q v2, p = p' ++ z /\ uncoloured p' q /\ v = q ++ v2 /\ unfinished z /\
  (z = [] -> uncoloured r v2) /\ (z <> [] -> exists c r', r = c :: r' /\ c < 0x80 /\ c <> 0xA).
Proof.
  intros u v U. induction U as [|c s t HC U IH|ps s t P U IH]; intros p r E.
  - symmetry in E. apply app_eq_nil in E. destruct E as [-> ->]. exists [], [], [], []. repeat split; try constructor; try reflexivity. intro K. congruence.
  - destruct p as [|x p].
    + cbn in E. subst r. exists [], [], [], (c :: t). repeat split; try constructor; auto. intro K. congruence.
    + cbn in E. injection E as <- E. destruct (IH p r E) as (p' & z & q & v2 & -> & U' & -> & Z & R1 & R2). exists (c :: p'), z, (c :: q), v2. repeat split; auto. now constructor.
  - apply app_eq_app in E. destruct E as (l & [[E1 E2]|[E1 E2]]).
    + destruct l as [|l0 l].
      * rewrite app_nil_r in E1. cbn in E2. subst p r. exists (sgr ps), [], [], t. rewrite app_nil_r. repeat split; auto; [|now left|congruence]. rewrite <- (app_nil_r (sgr ps)). apply unc_sgr; [exact P|constructor].
      * destruct (sgr_cut ps p (l0 :: l) P E1) as [Z K]; [discriminate|]. destruct p as [|p0 p].
        -- exists [], [], [], t. change ([] ++ l0 :: l) with (l0 :: l) in E1. repeat split; try constructor; auto; [|congruence]. intros _. rewrite E2, <- E1. now apply unc_sgr.
        -- exists [], (p0 :: p), [], t. split; [reflexivity|]. split; [constructor|]. split; [reflexivity|]. split; [exact Z|]. split; [discriminate|]. intros _. destruct K as (c & l' & EL & C); [discriminate|]. injection EL as <- <-. exists l0, (l ++ s). split; [exact E2|exact C].
    + destruct (IH l r) as (p' & z & q & v2 & -> & U' & -> & Z & R1 & R2); [exact E2|]. exists (sgr ps ++ p'), z, q, v2. rewrite E1, <- app_assoc. repeat split; auto. now apply unc_sgr.
Qed.
Lemma unfinished_head : forall z c y, unfinished z -> z = c :: y -> c = 0x1B.
Proof. intros z c y [->|[->|(ps & _ & ->)]] E; [discriminate| |]; now injection E as <- _. Qed.
Lemma params_m : forall a b ps x y, Forall parameter a -> Forall parameter b -> a ++ 0x6D :: x = b ++ ps ++ y -> ps = [0x6D] -> a = b /\ x = y.
Proof.
  induction a as [|c a IH]; intros b ps x y A B E ->.
  - destruct b as [|d b]; [now injection E as ->|]. cbn in E. injection E as <- _. pose proof (Forall_inv B) as K. unfold parameter in K. lia.
  - destruct b as [|d b]; [cbn in E; injection E as -> _; pose proof (Forall_inv A) as K; unfold parameter in K; lia|]. cbn [app] in E. injection E as <- E. destruct (IH b [0x6D] x y (Forall_inv_tail A) (Forall_inv_tail B) E eq_refl) as [-> ->]. auto.
Qed.
Lemma unc_before : forall a b, uncoloured a b -> forall p' q z x, uncoloured p' q -> unfinished z -> a ++ x = p' ++ z -> beginning b q.
Proof.
  intros a b U. induction U as [|c s t HC U IH|ps s t P U IH]; intros p' q z x U' Z E.
  - now exists q.
  - cbn [app] in E. inversion U' as [|c' s' t' HC' U2 E1 E2|ps' s' t' P' U2 E1 E2]; subst.
    + cbn [app] in E. destruct (HC (unfinished_head z c _ Z (eq_sym E))).
    + cbn [app] in E. injection E as <- E. destruct (IH s' t' z x U2 Z E) as [y ->]. now exists y.
    + cbn in E. injection E as -> _. congruence.
  - inversion U' as [|c' s' t' HC' U2 E1 E2|ps' s' t' P' U2 E1 E2]; subst.
    + exfalso. cbn [app] in E. unfold sgr in E. destruct Z as [->|[->|(qs & Q & ->)]]; try (cbn in E; discriminate E). cbn [app] in E. injection E as E. rewrite <- !app_assoc in E.
      assert (I : In 0x6D qs) by (rewrite <- E; apply in_or_app; right; now left). rewrite Forall_forall in Q. specialize (Q _ I). unfold parameter in Q. lia.
    + cbn in E. injection E as E1 _. congruence.
    + unfold sgr in E. cbn [app] in E. injection E as E. rewrite <- !app_assoc in E. cbn [app] in E. destruct (params_m ps ps' [0x6D] (s ++ x) (s' ++ z) P P' E eq_refl) as [_ K]. exact (IH s' q z x U2 Z K).
Qed.

(** * What is read *)
Lemma coloured_tail : forall cr nel lsps u v y ry, uncoloured u v -> all_clean v -> replaced true (char_rep nel lsps) y ry -> exists rs,
  replaced true (char_rep nel lsps) (as_sent cr u ++ y) (rs ++ ry) /\ concat rs = v.
Proof.
  intros cr nel lsps u v y ry H. induction H as [|c s t HC H IH|ps s t P H IH]; intros CL RY.
  - exists []. destruct cr; auto.
  - inversion CL as [|? ? C1 C2]; subst. destruct (IH C2 RY) as (rs & R & E). exists ([c] :: rs). rewrite <- E. split; [|reflexivity].
    change (c :: s) with ([c] ++ s). rewrite as_sent_app, <- app_assoc. cbn [app].
    destruct (clean_special _ C1) as (N1 & N2 & N3 & _). destruct (cr && (c =? 0xA)) eqn:EC.
    + apply andb_prop in EC. destruct EC as [-> EC]. apply N.eqb_eq in EC. subst c. change (as_sent true [0xA]) with [0xD; 0xA]. constructor; [constructor|exact (long_crlf _ _ _)|exact R].
    + assert (as_sent cr [c] = [c]) as -> by (unfold as_sent; destruct cr; [cbn in *; now rewrite EC|reflexivity]).
      pose proof (row_char true (char_rep nel lsps) c N1 N2 N3) as RC. rewrite (clean_char_rep nel lsps c C1) in RC. constructor; [exact RC|now apply long_char|exact R].
  - destruct (IH CL RY) as (rs & R & E). exists ([] :: rs). rewrite as_sent_app, sgr_sent, <- app_assoc by exact P. split; [|exact E]. cbn [app]. constructor; [now apply sgr_row|now apply sgr_longest|exact R].
Qed.
Lemma one_row : forall can rep m r, row can rep m r -> replaced can rep m [r].
Proof.
  intros can rep m r R. rewrite <- (app_nil_r m). constructor; [exact R| |constructor]. intros m' r' rest' _ E. rewrite app_nil_r in E. rewrite E, app_length. lia.
Qed.
Lemma unfinished_replaced : forall nel lsps z, unfinished z -> z <> [] -> replaced true (char_rep nel lsps) z [[]].
Proof.
  intros nel lsps z Z N. assert (R1 : run_of 0x1B [0x1B]) by (split; [discriminate|repeat constructor]). apply one_row. destruct Z as [->|[->|(ps & P & ->)]]; [congruence| |].
  - now apply row_esc.
  - exact (row_csi true (char_rep nel lsps) [0x1B] ps R1 P).
Qed.
Lemma unfinished_sent : forall cr z, unfinished z -> as_sent cr z = z.
Proof.
  intros [|] z Z; [|reflexivity]. apply expand_none. destruct Z as [->|[->|(ps & P & ->)]]; [intros []|intros [K|[]]; discriminate|]. intros [K|[K|K]]; [discriminate|discriminate|]. rewrite Forall_forall in P. specialize (P _ K). unfold parameter in P. change LF with 0xA in P. lia.
Qed.
Lemma made_repaired : forall rr, starts_ok (concat rr) -> exists e, made rr = concat rr ++ e /\ (e = repair (concat rr) \/ e = [0xA] /\ line_terminated (concat rr)).
Proof.
  intros rr S. unfold made. rewrite start_id by exact S. unfold guard_end, repair.
  destruct (last_opt (concat rr)) as [c|] eqn:LQ.
  - assert (EW : exists w, concat rr = w ++ [c]) by (destruct (concat rr) as [|z w] using rev_ind; [discriminate|]; rewrite last_opt_snoc in LQ; injection LQ as ->; now exists w). destruct EW as [w EW]. destruct (N.eqb_spec c 0xA) as [->|NE].
    + rewrite (proj1 lf_facts). unfold final_newline. destruct (last_opt rr) as [r|]; [|exists []; auto]. destruct (list_eqb r [0xA]); [exists []; auto|]. exists [0xA]. split; [reflexivity|]. right. split; [reflexivity|]. right. now exists w.
    + assert (FN : final_newline rr = [0xA]).
      { unfold final_newline. destruct rr as [|r rr] using rev_ind; [discriminate|]. rewrite last_opt_snoc. destruct (list_eqb r [0xA]) eqn:EQ; [|reflexivity]. apply list_eqb_eq in EQ. subst r. rewrite concat_app in LQ. cbn [concat app] in LQ. rewrite last_opt_snoc in LQ. congruence. }
      rewrite FN. destruct (is_basic_text_end c); [exists [0xA]; auto|]. exists [0x34F; 0xA]. rewrite <- app_assoc. auto.
  - apply last_opt_none in LQ. rewrite LQ. unfold final_newline. destruct (last_opt rr) as [r|]; [|exists []; auto]. destruct (list_eqb r [0xA]); [exists []; auto|]. exists [0xA]. split; [reflexivity|]. right. split; [reflexivity|now left].
Qed.
Lemma repaired_more : forall q e, nfc_ss q -> Forall allowed q -> starts_ok q -> e = [0xFFFD; 0xA] \/ e = repair q \/ e = [0xA] /\ line_terminated q -> string_ok (q ++ e) /\ In e repairs /\ line_terminated (q ++ e).
Proof.
  intros q e N A S H.
  assert (K : e = [0xFFFD; 0xA] \/ e = repair q -> string_ok (q ++ e) /\ In e repairs /\ line_terminated (q ++ e)).
  { intro G. destruct (repaired_ok q e N A S G) as [O I]. split; [exact O|]. split; [exact I|now apply repaired_lines]. }
  destruct H as [H|[H|[-> T]]]; [auto|auto|]. split; [|split; [cbn; auto|right; now exists q]]. split; [|split].
  - apply DebugProps.sub_ok_iff. split; [apply (nfc_ss_split q 0xA [] boring_LF N); split; reflexivity|]. apply Forall_app. split; [exact A|]. apply Forall_allowed_clean. constructor; [exact clean_lf|constructor].
  - intros c v E. destruct q as [|d q]; [injection E as <- _; apply lf_facts|injection E as <- _; exact (S d q eq_refl)].
  - intros v c E. apply app_inj_tail in E. destruct E as [_ <-]. apply lf_facts.
Qed.
Lemma unc_scalars : forall u v, uncoloured u v -> scalars v -> scalars u.
Proof.
  intros u v U. induction U as [|c s t HC U IH|ps s t P U IH]; intro S; [constructor| |].
  - constructor; [exact (Forall_inv S)|exact (IH (Forall_inv_tail S))].
  - unfold scalars in *. apply Forall_app. split; [|exact (IH S)]. unfold sgr. repeat constructor. apply Forall_app. split; [|repeat constructor]. eapply Forall_impl; [|exact P]. intros c K. unfold parameter in K. unfold is_scalar, in_range. lia.
Qed.
Lemma unc_no_bom : forall cr p q y, uncoloured p q -> all_clean q -> (forall t, y <> 0xFEFF :: t) -> forall t, as_sent cr p ++ y <> 0xFEFF :: t.
Proof.
  intros cr p q y U A Y t E. destruct U as [|c s q HC U|ps s q P U].
  - assert (EN : as_sent cr [] = []) by now destruct cr. rewrite EN in E. exact (Y t E).
  - pose proof (Forall_inv A) as C. apply clean_special in C. destruct C as (_ & _ & _ & C). change BOM with 0xFEFF in C. destruct cr; cbn in E; [destruct (c =? 10); injection E as E1 _; [discriminate E1|congruence]|injection E as E1 _; congruence].
  - rewrite as_sent_app, sgr_sent in E by exact P. discriminate E.
Qed.
Section read.
Variables (bom cr nel lsps : bool) (u v b x : list N).
Hypotheses (U : uncoloured u v) (OK : substring_ok v) (SO : starts_ok v) (SC : scalars v) (P : preceded v) (CUT : cut_off bom cr u b) (D : lossy_decoding b x).
Lemma colour_text : exists rr q e, replaced true (char_rep nel lsps) (without_bom x) rr /\ beginning q v /\ made rr = q ++ e /\ pipeline (q ++ e) = q ++ e /\ In e repairs /\ string_ok (q ++ e) /\ line_terminated (q ++ e) /\
  (forall u' v', beginning u' u -> uncoloured u' v' -> survives bom cr u' b -> beginning v' q).
Proof.
  destruct (bytes_cut _ _ CUT) as (q0 & r0 & k & E & EB & H). rewrite EB in *. pose proof (stored_scalars bom cr u (unc_scalars u v U SC)) as S. rewrite E in S.
  rewrite (cut_decoding q0 r0 k x S H D). destruct (stored_cut bom cr u q0 r0 k E H) as [qq C]. pose proof (survivors bom cr u qq q0 k) as SV. specialize (fun u' => SV u' C).
  apply DebugProps.sub_ok_iff in OK. destruct OK as [NT AT]. assert (AC : all_clean v) by now apply Forall_allowed_clean.
  assert (FIN : forall rr q y, beginning q v -> concat rr = q ++ y -> replaced true (char_rep nel lsps) (without_bom (q0 ++ match k with [] => [] | _ => [0xFFFD] end)) rr -> y = [] \/ y = [0xFFFD] ->
    (forall u' v', beginning u' qq -> uncoloured u' v' -> beginning v' q) ->
    exists rr q e, replaced true (char_rep nel lsps) (without_bom (q0 ++ match k with [] => [] | _ => [0xFFFD] end)) rr /\ beginning q v /\ made rr = q ++ e /\ pipeline (q ++ e) = q ++ e /\ In e repairs /\ string_ok (q ++ e) /\ line_terminated (q ++ e) /\
    (forall u' v', beginning u' u -> uncoloured u' v' -> survives bom cr u' (encode_all q0 ++ k) -> beginning v' q)).
  { intros rr q y B EC R Y MX. pose proof B as [r EV].
    assert (PQ : nfc_ss q /\ Forall allowed q /\ starts_ok q /\ preceded q).
    { split; [rewrite EV in NT; now apply nfc_ss_app in NT|]. split; [rewrite EV in AT; now apply Forall_app in AT|]. split; [now apply (beginning_starts q v)|].
      intros a c w -> UN. apply (P a c (w ++ r)); [now rewrite EV, <- app_assoc|exact UN]. }
    destruct PQ as (NQ & AQ & SQ & PQ).
    assert (SY : starts_ok (concat rr)).
    { rewrite EC. intros c w EW. destruct q as [|d q]; [|injection EW as <- _; exact (SQ d q eq_refl)]. destruct Y as [->| ->]; [discriminate|]. injection EW as <- _. apply orc_facts. }
    destruct (made_repaired rr SY) as (e & ME & HE).
    assert (K : exists e', made rr = q ++ e' /\ (e' = [0xFFFD; 0xA] \/ e' = repair q \/ e' = [0xA] /\ line_terminated q)).
    { rewrite ME, EC in *. destruct Y as [->| ->].
      - rewrite !app_nil_r in *. exists e. auto.
      - exists [0xFFFD; 0xA]. split; [|now left]. assert (e = [0xA]) as ->; [|now rewrite <- app_assoc]. destruct HE as [->|[-> _]]; [|reflexivity]. unfold repair. rewrite last_opt_snoc. change (0xFFFD =? 0xA) with false. now rewrite (proj1 orc_facts). }
    destruct K as (e' & ME' & HE'). destruct (repaired_more q e' NQ AQ SQ HE') as (OKE & IE & LT). exists rr, q, e'. split; [exact R|]. split; [exact B|]. split; [exact ME'|]. split; [apply ok_pipeline; [exact OKE|now apply repaired_preceded]|].
    split; [exact IE|]. split; [exact OKE|]. split; [exact LT|]. intros u' v' BU UU SS. apply (MX u' v'); [now apply SV|exact UU]. }
  assert (NB : forall p q y, stored bom cr p = (if bom then [0xFEFF] else []) ++ as_sent cr p -> uncoloured p q -> beginning q v -> (forall t, y <> 0xFEFF :: t) -> without_bom ((if bom then [0xFEFF] else []) ++ as_sent cr p ++ y) = as_sent cr p ++ y).
  { intros p q y _ UP [r EV] Y. destruct bom; [reflexivity|]. apply without_bom_none. apply (unc_no_bom cr p q y UP); [|exact Y]. rewrite EV in AC. now apply Forall_app in AC. }
  assert (CB : forall q, beginning q v -> all_clean q) by (intros q [r EV]; rewrite EV in AC; now apply Forall_app in AC).
  destruct C as [k r EBM HK ER|p r k EU HK|p r EC EU].
  - assert (MX : forall u' v', beginning u' [] -> uncoloured u' v' -> beginning v' []).
    { intros u' v' [w EW] UU. symmetry in EW. apply app_eq_nil in EW. destruct EW as [-> _]. inversion UU; subst; now exists []. }
    destruct k as [|k0 k].
    + apply (FIN [] [] []); auto; [now exists v|constructor].
    + apply (FIN [[0xFFFD]] [] [0xFFFD]); auto; [now exists v|]. exact (sent_replaced false nel lsps [0xFFFD] (Forall_cons _ clean_orc (Forall_nil _))).
  - destruct (unc_cut u v U p r EU) as (p' & z & q & v2 & EP & U' & EV & Z & R1 & R2). assert (B : beginning q v) by now exists v2.
    assert (MX : forall u' v', beginning u' p -> uncoloured u' v' -> beginning v' q) by (intros u' v' [w EW] UU; rewrite EP in EW; exact (unc_before u' v' UU p' q z w U' Z (eq_sym EW))).
    destruct z as [|z0 z].
    + rewrite app_nil_r in EP. subst p'. destruct k as [|k0 k].
      * destruct (coloured_tail cr nel lsps p q [] [] U' (CB q B) (replaced_nil _ _)) as (rs & R & CE). rewrite (app_nil_r rs) in R. apply (FIN rs q []); auto; [now rewrite app_nil_r|]. unfold stored. rewrite <- app_assoc. rewrite (NB p q [] eq_refl U' B) by discriminate. exact R.
      * destruct (coloured_tail cr nel lsps p q [0xFFFD] [[0xFFFD]] U' (CB q B) (sent_replaced false nel lsps [0xFFFD] (Forall_cons _ clean_orc (Forall_nil _)))) as (rs & R & CE). apply (FIN (rs ++ [[0xFFFD]]) q [0xFFFD]); auto; [rewrite concat_app, CE; reflexivity|].
        unfold stored. rewrite <- app_assoc. rewrite (NB p q [0xFFFD] eq_refl U' B) by discriminate. exact R.
    + destruct R2 as (c & r' & -> & C1 & C2); [discriminate|]. assert (EK : k = []).
      { change (c :: r') with ([c] ++ r') in HK. rewrite as_sent_app in HK. assert (as_sent cr [c] = [c]) as EC by (destruct cr; [cbn; now replace (c =? 10) with false by lia|reflexivity]). rewrite EC in HK. now apply half_ascii in HK. }
      subst k. assert (NZ : z0 :: z <> []) by discriminate. pose proof (unfinished_head _ z0 z Z eq_refl) as HZ.
      destruct (coloured_tail cr nel lsps p' q (z0 :: z) [[]] U' (CB q B) (unfinished_replaced nel lsps _ Z NZ)) as (rs & R & CE). apply (FIN (rs ++ [[]]) q []); auto; [rewrite concat_app, CE; reflexivity|].
      unfold stored. rewrite app_nil_r, EP, as_sent_app, (unfinished_sent cr _ Z). rewrite (NB p' q (z0 :: z) eq_refl U' B); [exact R|]. intros t K. injection K as K _. congruence.
  - destruct (unc_cut u v U p (0xA :: r) EU) as (p' & z & q & v2 & EP & U' & EV & Z & R1 & R2). destruct z as [|z0 z]; [|destruct R2 as (c & r' & K & _ & C2); [discriminate|injection K as <- _; congruence]].
    rewrite app_nil_r in EP. subst p'. specialize (R1 eq_refl). inversion R1 as [|c0 s0 t0 HC0 U0 E1 E2|ps0 s0 t0 P0 U0 E1 E2]; subst v2; try subst c0.
    assert (B : beginning (q ++ [0xA]) v) by (exists t0; now rewrite EV, <- app_assoc). assert (B' : beginning q v) by (eexists; exact EV).
    assert (UL : uncoloured (p ++ [0xA]) (q ++ [0xA])) by (apply unc_app; [exact U'|]; constructor; [discriminate|constructor]).
    destruct (coloured_tail cr nel lsps p q [0xD] [[0xA]] U' (CB q B') (one_row _ _ _ _ (row_cr _ _))) as (rs & R & CE). apply (FIN (rs ++ [[0xA]]) (q ++ [0xA]) []); auto.
    + rewrite concat_app, CE. cbn. now rewrite app_nil_r.
    + unfold stored. rewrite app_nil_r, <- app_assoc. rewrite (NB p q [0xD] eq_refl U' B') by discriminate. exact R.
    + intros u' v' [w EW] UU. apply (unc_before u' v' UU (p ++ [0xA]) (q ++ [0xA]) [] w UL); [now left|]. now rewrite app_nil_r.
Qed.
End read.
Theorem colour_cut_read : forall bom cr nel lsps u v b sc o, uncoloured u v -> substring_ok v -> starts_ok v -> scalars v -> Forall (fun c => is_assigned c = true) v -> cut_off bom cr u b ->
  lossy_decoding b (stream_text sc) -> no_push sc -> bom_visible sc -> gives nel lsps sc o ->
  exists q e, beginning q v /\ o = q ++ e /\ In e repairs /\ string_ok o /\ line_terminated o /\ (forall u' v', beginning u' u -> uncoloured u' v' -> survives bom cr u' b -> beginning v' q).
Proof.
  intros bom cr nel lsps u v b sc o U OK SO SC A CUT D NP BV (sizes & rs & j & rest & R & EN & <-). destruct (session_end _ _ _ _ _ _ _ R EN) as (-> & _).
  destruct (colour_text bom cr nel lsps u v b (stream_text sc) U OK SO SC (assigned_preceded v A) CUT D) as (rr & q & e & RR & B & M & PL & IE & OKE & LT & MX). exists q, e.
  assert (TR : translate nel lsps (without_bom (stream_text sc)) = q ++ e) by (rewrite (translate_replaced _ _ _ _ RR), <- final_newline_eq; exact M).
  assert (EQ : converted_stream nel lsps sc = q ++ e).
  { rewrite (converted_plain _ _ _ NP BV); rewrite TR; [exact PL|]. apply assigned_unguarded. apply Forall_app. split; [destruct B as [r EV]; rewrite EV in A; now apply Forall_app in A|now apply repairs_assigned]. }
  rewrite EQ. auto 10.
Qed.
Theorem colour_cut_at_once : forall bom cr nel lsps u v b x o, uncoloured u v -> substring_ok v -> starts_ok v -> scalars v -> preceded v -> cut_off bom cr u b ->
  lossy_decoding b x -> gives nel lsps [Chunk x End] o ->
  exists q e, beginning q v /\ o = q ++ e /\ In e repairs /\ string_ok o /\ line_terminated o /\ (forall u' v', beginning u' u -> uncoloured u' v' -> survives bom cr u' b -> beginning v' q).
Proof.
  intros bom cr nel lsps u v b x o U OK SO SC A CUT D (sizes & rs & j & rest & R & EN & <-). destruct (session_end _ _ _ _ _ _ _ R EN) as (-> & _).
  destruct (colour_text bom cr nel lsps u v b x U OK SO SC A CUT D) as (rr & q & e & RR & B & M & PL & IE & OKE & LT & MX). exists q, e.
  assert (TR : translate nel lsps (without_bom x) = q ++ e) by (rewrite (translate_replaced _ _ _ _ RR), <- final_newline_eq; exact M).
  rewrite converted_whole, TR, PL. auto 10.
Qed.

(** * What a writer with colours has sent *)
Lemma send_stuck : forall cr d t r d', spec_send cr d t = (r, d') -> exists a c, sent d' = sent d ++ a /\ as_sent cr t = a ++ c /\ (c = [] \/ failed d' = true).
Proof.
  intros cr d y r d1 SS. unfold spec_send in SS. destruct (fresh d && _).
  - injection SS as _ <-. exists [], (as_sent cr y). cbn. rewrite app_nil_r. auto.
  - destruct (outcomes d) as [|[|n] l]; injection SS as _ <-; cbn.
    + exists (as_sent cr y), []. rewrite app_nil_r. auto.
    + exists (as_sent cr y), []. rewrite app_nil_r. auto.
    + exists (firstn n (as_sent cr y)), (skipn n (as_sent cr y)). rewrite firstn_skipn. auto.
Qed.
Lemma cop_step : forall cr d o b d', cop_ok o -> spec_cop cr d o = (b, d') ->
  (failed d = true -> sent d' = sent d /\ failed d' = true) /\ exists a c, sent d' = sent d ++ a /\ as_sent cr (cop_shown o) = a ++ c /\ (c = [] \/ failed d' = true).
Proof.
  intros cr d o b d' OK H.
  assert (CALL : forall r d1, spec_call d = (r, d1) -> sent d1 = sent d /\ failed d1 = failed d) by (intros r d1; unfold spec_call; destruct (outcomes d) as [|[|n] l]; intro SS; injection SS as _ <-; auto).
  assert (NX : as_sent cr [] = []) by now destruct cr.
  assert (N0 : sent d' = sent d -> exists a c, sent d' = sent d ++ a /\ as_sent cr [] = a ++ c /\ (c = [] \/ failed d' = true)) by (intro S; exists [], []; rewrite app_nil_r, NX; auto).
  destruct o as [p|s| | |]; cbn [spec_cop spec_op cop_op cop_shown] in *; unfold spec_write_text, spec_flush, spec_close in H.
  - destruct (failed d) eqn:F; [injection H as _ <-; split; [auto|]; exists [], (as_sent cr (shown p)); rewrite app_nil_r; auto|]. split; [discriminate|]. destruct (negb _); [injection H as _ <-; exists [], (as_sent cr (shown p)); rewrite app_nil_r; auto|now apply send_stuck in H].
  - destruct (failed d) eqn:F; [injection H as _ <-; split; [auto|]; exists [], (as_sent cr s); rewrite app_nil_r; auto|]. split; [discriminate|now apply send_stuck in H].
  - destruct (failed d) eqn:F; [injection H as _ <-; split; [auto|now apply N0]|]. split; [discriminate|]. apply N0. repeat match type of H with (if ?x then _ else _) = _ => destruct x | (match ?x with _ => _ end) = _ => destruct x end; first [now apply CALL in H|now injection H as _ <-].
  - destruct (failed d) eqn:F; [injection H as _ <-; split; [auto|now apply N0]|]. split; [discriminate|]. apply N0. repeat match type of H with (if ?x then _ else _) = _ => destruct x | (match ?x with _ => _ end) = _ => destruct x end; first [now apply CALL in H|now injection H as _ <-].
  - injection H as _ <-. split; [auto|now apply N0].
Qed.
Lemma cops_prefix : forall cr os d bs d', Forall cop_ok os -> spec_cops cr d os = (bs, d') -> exists a c, sent d' = sent d ++ a /\ (failed d = true -> a = []) /\ as_sent cr (concat (map cop_shown os)) = a ++ c.
Proof.
  intros cr. induction os as [|o os IH]; intros d bs d' HP H; cbn [spec_cops] in H.
  - injection H as _ <-. exists [], []. rewrite app_nil_r. destruct cr; auto.
  - destruct (spec_cop cr d o) as [r d1] eqn:E1. destruct (spec_cops cr d1 os) as [rs d2] eqn:E2. injection H as _ <-. destruct (cop_step cr d o r d1 (Forall_inv HP) E1) as (ST & a1 & c1 & S1 & T1 & K).
    destruct (IH d1 rs d2 (Forall_inv_tail HP) E2) as (a2 & c2 & S2 & Z2 & T2). cbn [map concat]. rewrite as_sent_app, T1.
    assert (Z1 : failed d = true -> a1 = [] /\ failed d1 = true).
    { intro F. destruct (ST F) as [S F1]. split; [|exact F1]. rewrite S in S1. rewrite <- (app_nil_r (sent d)) in S1 at 1. now apply app_inv_head in S1. }
    destruct (failed d1) eqn:F1.
    + exists a1, (c1 ++ as_sent cr (concat (map cop_shown os))). rewrite S2, (Z2 eq_refl), app_nil_r, <- !app_assoc. split; [exact S1|]. split; [intro F; now apply Z1|reflexivity].
    + destruct K as [->|K]; [|discriminate]. exists (a1 ++ a2), c2. rewrite S2, S1, T2, app_nil_r, <- !app_assoc. split; [reflexivity|]. split; [intro F; now destruct (Z1 F)|reflexivity].
Qed.
Theorem colour_beginning : forall cr p o ops rs w, do_ops (new_writer cr true (mksink p o false)) (map cop_op ops) = (rs, w) -> Forall cop_ok ops ->
  beginning (emitted (inner w)) (p ++ as_sent cr (concat (map cop_shown ops))).
Proof.
  intros cr p o ops rs w H HP. pose proof (colour_histories cr p o ops rs w H HP) as K. destruct (spec_cops cr (new_doc p o) ops) as [bs d'] eqn:E. destruct K as (_ & -> & _).
  destruct (cops_prefix cr ops _ bs d' HP E) as (a & c & S & _ & T). exists c. rewrite S, T. cbn [sent new_doc]. now rewrite <- app_assoc.
Qed.
Theorem colour_crash : forall (bom cr : bool) o ops rs w nel lsps b sc out, do_ops (new_writer cr true (mksink (if bom then [0xFEFF] else []) o false)) (map cop_op ops) = (rs, w) -> Forall cop_ok ops ->
  let u := concat (map cop_shown ops) in let v := concat (concat (map cop_pieces ops)) in substring_ok v -> starts_ok v -> scalars v -> Forall (fun c => is_assigned c = true) v ->
  beginning b (encode_all (emitted (inner w))) -> lossy_decoding b (stream_text sc) -> no_push sc -> bom_visible sc -> gives nel lsps sc out ->
  exists q e, beginning q v /\ out = q ++ e /\ In e repairs /\ string_ok out /\ line_terminated out /\ (forall u' v', beginning u' u -> uncoloured u' v' -> survives bom cr u' b -> beginning v' q).
Proof.
  intros bom cr o ops rs w nel lsps b sc out H HP u v OK SO SC A B D NP BV G. apply (colour_cut_read bom cr nel lsps u v b sc out); auto; [now apply cops_uncoloured|].
  destruct (colour_beginning _ _ _ _ _ _ H HP) as [c E]. fold u in E. destruct B as [d EB]. unfold cut_off, stored. rewrite E, encode_all_app, EB, <- app_assoc. now eexists.
Qed.
