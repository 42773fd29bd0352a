(** write! and writeln! on a TextWriter (C98). *)
From Coq Require Import NArith Arith List Bool Lia ZifyBool ZifyNat ZifyN.
From Verif Require Import Base Ucd UcdTables Norm Chars TextTables TextUtils UcdFacts NormFacts CharFacts DocTable SpecText TextFacts PipelineFacts DocFacts IsoFacts
  Utf8 Utf8Facts Input Output ReadFacts SpecRead SpecConv SpecWrite WriteFacts WriteProps Strings StringFacts ConcatFacts EdgeFacts SpecString StringProps LossyProps
  Fuzz FuzzProps SpecMore KeepFacts ConvFacts GuardFacts SpecStream StreamProps JoinProps SeamProps ColourProps StdIo StdProps StdBuf SpecBuf BufWrite StdFmt SpecFmt.
Import ListNotations.
Local Open Scope N_scope.
Arguments N.add : simpl never.
Arguments N.leb : simpl never.
Arguments N.ltb : simpl never.
Arguments N.eqb : simpl never.
Local Opaque pipeline.

(** * Converting two texts one after the other *)
Lemma ss_go_at : forall a n c b, is_basic_text_start c = true -> (n <= 30)%nat ->
  stream_safe_go n (a ++ c :: b) = stream_safe_go n a ++ stream_safe_go 0 (c :: b).
Proof.
  induction a as [|x a IH]; intros n c b H Hn.
  - cbn [app stream_safe_go]. destruct (start_pat c H) as [t P].
    assert (E1 : cl_leading c = 0%nat).
    { rewrite cl_leading_eq. unfold pat in P. destruct (kd c) as [|y l]; [discriminate|]. cbn in P. injection P as P _. cbn. now rewrite P. }
    assert (E2 : count_next n c = count_next 0 c) by (rewrite !count_next_run, P; reflexivity).
    rewrite E1, E2. unfold MAX_NONSTARTERS. assert (Nat.ltb 30 (n + 0) = false) as -> by (apply Nat.ltb_ge; lia). reflexivity.
  - cbn [app stream_safe_go]. unfold MAX_NONSTARTERS. destruct (Nat.ltb 30 (n + cl_leading x)) eqn:E.
    + rewrite IH; [reflexivity|exact H|]. apply next_le; [lia|]. pose proof (cl_leading_le x). apply Nat.leb_le. lia.
    + rewrite IH; [reflexivity|exact H|]. apply next_le; [lia|]. apply Nat.leb_le. apply Nat.ltb_ge in E. lia.
Qed.
Lemma nfc_twice : forall x y, starts_ok (nfc y) -> starts_ok y -> nfc (nfc x ++ nfc y) = nfc (x ++ y).
Proof.
  intros x y H1 H2. unfold nfc at 1 4. f_equal.
  assert (S : forall z, starts_ok z -> hd_starter (flat_map cd z)).
  { intros [|c z] HS; [exact I|]. cbn [flat_map]. destruct (cd_cons c) as [t E]. rewrite E. cbn. apply start_cdh_ccc. exact (HS _ _ eq_refl). }
  rewrite !nfd_app_starter by now apply S. now rewrite !nfd_nfc.
Qed.
Lemma starts_pipeline : forall s, starts_ok s -> starts_ok (pipeline s).
Proof. intros s H. apply starts_ok_iff. rewrite pipeline_first. now apply starts_ok_iff. Qed.
Lemma ss_first : forall s, starts_ok s -> starts_ok (stream_safe s).
Proof.
  intros [|c t] H x u E; [discriminate|]. unfold stream_safe in E. cbn [stream_safe_go] in E. pose proof (cl_leading_le c).
  assert (L : Nat.ltb MAX_NONSTARTERS (0 + cl_leading c) = false) by (apply Nat.ltb_ge; unfold MAX_NONSTARTERS; lia). rewrite L in E. injection E as <- _.
  exact (H _ _ eq_refl).
Qed.
Theorem pipeline_seam : forall a b, begins_alone b -> pipeline (a ++ b) = pipeline a ++ pipeline b <-> ~ joined (pipeline a) (pipeline b).
Proof.
  intros a b (c & u & -> & S & A & NC). apply N.eqb_neq in NC. fold CGJ in NC.
  assert (SB : starts_ok (c :: u)) by (intros x t E; injection E as <- _; exact S).
  pose proof (starts_pipeline _ SB) as SP. split.
  - intro E. rewrite <- (seam_joined _ _ SP). apply nfc_ss_seam_inv; [exact SP|]. rewrite <- E. apply pipeline_nfc_ss.
  - intro J. apply (seam_joined _ _ SP) in J.
    pose proof (nfc_ss_seam _ _ SP (pipeline_nfc_ss a) (pipeline_nfc_ss _) J) as [K _]. rewrite <- K.
    rewrite !pipeline_conv in *. unfold isolate_unassigned in *.
    assert (EB : isolate_go false false (c :: u) = c :: isolate_go false false u).
    { pose proof (iso_sep [] false false c u A NC) as Z. cbn [app] in Z. rewrite Z. reflexivity. }
    rewrite (iso_sep a false false c u A NC), <- EB in *. unfold conv in *. rewrite cjk_app in *.
    assert (SC : starts_ok (cjk_compat_variants (isolate_go false false (c :: u)))).
    { rewrite EB. unfold cjk_compat_variants. cbn [flat_map]. pose proof (start_cjk c S) as Z. destruct (cjk_ends c) as [Q|(y & v & Q & _)]; rewrite Q in *; cbn in *;
        intros x t E; injection E as <- _; exact Z. }
    assert (ES : forall x y, starts_ok y -> stream_safe (x ++ y) = stream_safe x ++ stream_safe y).
    { intros x [|z y] SY; [now rewrite !app_nil_r|]. apply ss_go_at; [exact (SY _ _ eq_refl)|lia]. }
    rewrite ES by exact SC. symmetry. apply nfc_twice; [exact SP|]. now apply ss_first.
Qed.

(** * Converting pieces *)
Lemma begins_nonnil : forall b, begins_alone b -> b <> [].
Proof. intros b (c & u & -> & _). discriminate. Qed.
Lemma begins_app : forall b c, begins_alone b -> begins_alone (b ++ c).
Proof. intros b c (x & u & -> & H). exists x, (u ++ c). split; [reflexivity|exact H]. Qed.
Lemma begins_starts : forall b, begins_alone b -> starts_ok b.
Proof. intros b (c & u & -> & S & _) x t E. injection E as <- _. exact S. Qed.
Lemma tl_map : forall (ps : list (list N)), tl (map pipeline ps) = map pipeline (tl ps).
Proof. intros [|p ps]; reflexivity. Qed.
Theorem pieces_seams : forall ps, Forall begins_alone (tl ps) ->
  concat (map pipeline ps) = pipeline (concat ps) <-> forall l a b r, ps = l ++ a :: b :: r -> ~ joined (pipeline a) (pipeline b).
Proof.
  intros ps H. split.
  - intros E l a b r EP. assert (K : nfc_ss (concat (map pipeline ps))) by (rewrite E; apply pipeline_nfc_ss).
    apply (proj1 (chain_nfc_ss (map pipeline ps) ltac:(rewrite tl_map; apply Forall_map; eapply Forall_impl; [|exact H]; intros x B; split; [apply pipeline_nonnil, begins_nonnil, B|apply starts_pipeline, begins_starts, B])
      ltac:(apply Forall_map, Forall_forall; intros; apply pipeline_nfc_ss)) K (map pipeline l) _ _ (map pipeline r)).
    rewrite EP, map_app. reflexivity.
  - revert H. induction ps as [|p ps IH]; intros H J; [cbn; now rewrite pipeline_nil|]. cbn [tl] in H. destruct ps as [|q ps].
    { cbn. now rewrite !app_nil_r. }
    cbn [map concat] in *. inversion H as [|? ? B H']; subst. cbn [tl] in IH.
    rewrite IH; [|exact H'|intros l a b r E; exact (J (p :: l) a b r (f_equal (cons p) E))].
    symmetry. apply pipeline_seam; [now apply begins_app|]. rewrite <- IH; [|exact H'|intros l a b r E; exact (J (p :: l) a b r (f_equal (cons p) E))].
    rewrite joined_head by (apply pipeline_nonnil, begins_nonnil, B). exact (J [] p q ps eq_refl).
Qed.

(** * write_fmt *)
Theorem fmt_total : forall ps w, write_fmt w ps <> None.
Proof.
  induction ps as [|p ps IH]; intro w; cbn [write_fmt]; [discriminate|]. pose proof (write_all_total w (encode_all p)) as T.
  destruct (write_all w (encode_all p)) as [[[e|] w']|]; [discriminate|apply IH|exact T].
Qed.
Lemma do_ops_app : forall a b w, do_ops w (a ++ b) = let '(ra, w1) := do_ops w a in let '(rb, w2) := do_ops w1 b in (ra ++ rb, w2).
Proof.
  induction a as [|o a IH]; intros b w; cbn [app do_ops]; [now destruct (do_ops w b)|]. destruct (do_op w o) as [r w1]. rewrite IH.
  destruct (do_ops w1 a) as [ra w2]. destruct (do_ops w2 b). reflexivity.
Qed.
Theorem fmt_stops : forall ps w r w', Forall scalars ps -> write_fmt w ps = Some (r, w') ->
  (r = None /\ exists rs, do_ops w (map OpWriteStr (nonempty ps)) = (rs, w') /\ Forall (fun r => r = None) rs) \/
  (exists e before p after rs w1, r = Some e /\ nonempty ps = before ++ p :: after /\
     do_ops w (map OpWriteStr before) = (rs, w1) /\ Forall (fun r => r = None) rs /\ write_str w1 p = (Some e, w')).
Proof.
  induction ps as [|p ps IH]; intros w r w' S E; cbn [write_fmt] in E.
  - injection E as <- <-. left. split; [reflexivity|]. exists []. split; [reflexivity|constructor].
  - inversion S as [|? ? SP S']; subst. destruct p as [|c p].
    { cbn [encode_all flat_map] in E. change (write_all w []) with (Some (@None werror, w)) in E. exact (IH _ _ _ S' E). }
    rewrite write_all_text in E by (assumption || discriminate). change (nonempty ((c :: p) :: ps)) with ((c :: p) :: nonempty ps).
    destruct (write_str w (c :: p)) as [[e|] w1] eqn:W.
    + injection E as <- <-. right. exists e, [], (c :: p), (nonempty ps), [], w. do 3 (split; [reflexivity|]). split; [constructor|exact W].
    + destruct (IH _ _ _ S' E) as [(-> & rs & D & F)|(e & b & q & a & rs & w2 & -> & P & D & F & K)].
      * left. split; [reflexivity|]. exists (None :: rs). cbn [map do_ops do_op]. rewrite W, D. split; [reflexivity|now constructor].
      * right. exists e, ((c :: p) :: b), q, a, (None :: rs), w2. split; [reflexivity|]. split; [now rewrite P|]. cbn [map do_ops do_op]. rewrite W, D.
        split; [reflexivity|]. split; [now constructor|exact K].
Qed.
Lemma nonempty_concat : forall ps, concat (nonempty ps) = concat ps.
Proof. induction ps as [|[|c p] ps IH]; [reflexivity|exact IH|]. change (nonempty ((c :: p) :: ps)) with ((c :: p) :: nonempty ps). cbn [concat]. now rewrite IH. Qed.
Lemma nonempty_pipeline : forall ps, concat (map pipeline (nonempty ps)) = concat (map pipeline ps).
Proof.
  induction ps as [|[|c p] ps IH]; [reflexivity|cbn [map concat]; rewrite pipeline_nil; exact IH|].
  change (nonempty ((c :: p) :: ps)) with ((c :: p) :: nonempty ps). cbn [map concat]. now rewrite IH.
Qed.
Lemma nonempty_all : forall ps, Forall (fun x => x <> []) (nonempty ps).
Proof. intro ps. apply Forall_forall. intros x H. apply filter_In in H. destruct H as [_ H]. intros ->. discriminate. Qed.
Lemma plain_strs : forall ps, Forall plain_op (map OpWriteStr ps).
Proof. intro ps. apply Forall_map, Forall_forall. intros. exact I. Qed.

(** the same as the calls of write_str *)
Lemma fmt_ops : forall ps w r w' rs w2, Forall scalars ps -> write_fmt w ps = Some (r, w') -> do_ops w (map OpWriteStr (nonempty ps)) = (rs, w2) ->
  (r = None <-> Forall (fun r => r = None) rs) /\ (r = None -> w' = w2).
Proof.
  intros ps w r w' rs w2 S E D. destruct (fmt_stops _ _ _ _ S E) as [(-> & rs' & D' & F)|(e & b & q & a & rs' & w1 & -> & P & D' & F & K)].
  - rewrite D in D'. injection D' as -> ->. split; [split; auto|auto].
  - split; [|discriminate]. split; [discriminate|]. intro F'. exfalso. rewrite P, map_app, do_ops_app, D' in D. cbn [map do_ops do_op] in D. rewrite K in D.
    destruct (do_ops w' (map OpWriteStr a)) as [ra wa]. injection D as <- _. apply Forall_app in F'. destruct F' as [_ F']. apply Forall_inv in F'. discriminate.
Qed.
Lemma ok_none : forall rs, Forall (fun r => r = None) rs <-> Forall (fun r => r = true) (map ok rs).
Proof. intro rs. rewrite Forall_map. split; intro H; (eapply Forall_impl; [|exact H]); intros [x|]; cbn; congruence. Qed.
Theorem fmt_written : forall bom cr ps r w r' w', Forall scalars ps -> write_fmt (new_writer cr false (below bom)) ps = Some (r, w) -> close w = (r', w') ->
  (r = None <-> Forall allowed (concat ps) /\ starts_ok (concat ps)) /\
  (r = None /\ r' = None <-> strict_stream (concat ps)) /\
  (r = None -> emitted (inner w) = (if bom then [0xFEFF] else []) ++ as_sent cr (concat (map pipeline ps)) /\ emitted (inner w') = emitted (inner w)).
Proof.
  intros bom cr ps r w r' w' S E C. unfold below in E. set (p := if bom then [0xFEFF] else []) in *.
  destruct (do_ops (new_writer cr false (mksink p [] false)) (map OpWriteStr (nonempty ps))) as [rs w2] eqn:D.
  destruct (fmt_ops _ _ _ _ _ _ S E D) as [RN RW].
  destruct (ops_refine _ cr _ _ (new_refines cr p []) (plain_strs (nonempty ps))) as [RS R]. rewrite D in RS, R. cbn [fst snd] in RS, R.
  pose proof (spec_pieces cr (nonempty ps) (new_doc p []) (nonempty_all ps) eq_refl eq_refl) as K.
  destruct (spec_ops cr (new_doc p []) (map OpWriteStr (nonempty ps))) as [rb d]. cbn [fst snd] in RS, R. destruct K as [K1 K2].
  rewrite nonempty_concat in K1. rewrite nonempty_pipeline in K2. cbn [fresh new_doc text sent app] in K1, K2.
  assert (OK : r = None <-> Forall (fun r => r = true) rb) by (rewrite RN, ok_none, RS; reflexivity).
  assert (A1 : r = None <-> Forall allowed (concat ps) /\ starts_ok (concat ps)) by (rewrite OK, K1; intuition).
  split; [exact A1|].
  assert (CL : r = None -> (r' = None <-> line_terminated (concat ps)) /\ emitted (inner w) = p ++ as_sent cr (concat (map pipeline ps)) /\ emitted (inner w') = emitted (inner w)).
  { intro Z. specialize (RW Z). subst w2. apply OK in Z. destruct (K2 Z) as (F & O & T & SE).
    destruct (op_refines cr _ w OpClose R I) as [RC R']. cbn [do_op spec_op] in RC, R'. rewrite C in RC, R'. cbn [fst snd] in RC, R'.
    destruct R as (_ & _ & _ & EM & _). destruct R' as (_ & _ & _ & EM' & _). rewrite EM, EM'.
    assert (LT : line_terminated (concat (map pipeline ps)) <-> line_terminated (concat ps)).
    { clear. rewrite <- (nonempty_concat ps), <- (nonempty_pipeline ps). pose proof (nonempty_all ps) as NE. induction (nonempty ps) as [|x l _] using rev_ind; [reflexivity|].
      rewrite map_app, !concat_app. cbn [map concat]. rewrite !app_nil_r. apply Forall_app in NE. destruct NE as [_ NE]. apply Forall_inv in NE.
      assert (L : forall a b, b <> [] -> line_terminated (a ++ b) <-> line_terminated b).
      { intros a b NB. unfold line_terminated. split.
        - intros [Q|[u Q]]; [apply app_eq_nil in Q; destruct Q; contradiction|right]. destruct b as [|z b _] using rev_ind; [congruence|]. rewrite app_assoc in Q.
          apply app_inj_tail in Q. destruct Q as [_ ->]. eauto.
        - intros [Q|[u ->]]; [contradiction|right]. exists (a ++ u). now rewrite app_assoc. }
      rewrite !L by (try apply pipeline_nonnil; exact NE). apply pipeline_line. }
    rewrite <- T in SE. rewrite <- LT, <- T. clear LT K2. unfold spec_close in *. rewrite F in *. cbn [fst snd] in *.
    assert (OKR : r' = None <-> ok r' = true) by (destruct r'; cbn; split; congruence). rewrite OKR, RC. unfold spec_call. rewrite O.
    destruct (text d) as [|z t _] using rev_ind.
    - cbn. split; [split; [intros _; left; reflexivity|reflexivity]|]. split; [exact SE|reflexivity].
    - rewrite last_opt_snoc. destruct (N.eqb_spec z 10) as [->|NZ]; cbn.
      + split; [split; [intros _; right; eauto|reflexivity]|]. split; [exact SE|reflexivity].
      + split; [|split; [exact SE|reflexivity]]. split; [discriminate|]. intros [Q|[v Q]]; [destruct t; discriminate|]. apply app_inj_tail in Q. destruct Q. contradiction. }
  split; [|intro Z; apply (CL Z)]. unfold strict_stream, strict_accepts. split.
  - intros [Z1 Z2]. destruct (CL Z1) as [C1 _]. apply C1 in Z2. apply A1 in Z1. destruct Z1 as [AL ST]. split; [|exact Z2]. split; [exact ST|]. split; [|exact AL].
    intros t c Q. destruct Z2 as [Z2|[u Z2]]; [rewrite Z2 in Q; destruct t; discriminate|]. rewrite Z2 in Q. apply app_inj_tail in Q. destruct Q as [_ <-]. vm_compute. reflexivity.
  - intros [(ST & _ & AL) L]. assert (Z : r = None) by (apply A1; auto). split; [exact Z|]. now apply (CL Z).
Qed.

(** * Compared with writing the formatted text at once *)
Lemma as_sent_inj : forall cr s t, all_clean s -> all_clean t -> as_sent cr s = as_sent cr t -> s = t.
Proof. intros [|] s t HS HT E; [|exact E]. cbn [as_sent] in E. apply (f_equal collapse) in E. now rewrite !collapse_expand in E. Qed.
Theorem fmt_at_once : forall bom cr ps r w r1 w1, Forall scalars ps -> write_fmt (new_writer cr false (below bom)) ps = Some (r, w) ->
  concat ps <> [] -> write_str (new_writer cr false (below bom)) (concat ps) = (r1, w1) ->
  (r = None <-> r1 = None) /\
  (r = None -> Forall begins_alone (tl (nonempty ps)) ->
     (emitted (inner w) = emitted (inner w1) <-> forall l a b t, nonempty ps = l ++ a :: b :: t -> ~ joined (pipeline a) (pipeline b))).
Proof.
  intros bom cr ps r w r1 w1 S E NN E1.
  assert (SC : scalars (concat ps)) by (clear - S; unfold scalars in *; induction S; cbn [concat]; [constructor|now apply Forall_app]).
  assert (W1 : write_fmt (new_writer cr false (below bom)) [concat ps] = Some (r1, w1)).
  { cbn [write_fmt]. rewrite write_all_text, E1 by assumption. now destruct r1. }
  destruct (close w) as [rc wc] eqn:C. destruct (close w1) as [rc1 wc1] eqn:C1.
  destruct (fmt_written _ _ _ _ _ _ _ S E C) as (A & _ & B). destruct (fmt_written bom cr [concat ps] _ _ _ _ (Forall_cons _ SC (Forall_nil _)) W1 C1) as (A1 & _ & B1).
  cbn [concat map] in A1, B1. rewrite !app_nil_r in A1, B1. split; [now rewrite A, A1|]. intros Z BA.
  assert (Z1 : r1 = None) by (apply A1, A, Z). rewrite (proj1 (B Z)), (proj1 (B1 Z1)), <- (pieces_seams _ BA), nonempty_concat, nonempty_pipeline. apply A in Z. destruct Z as [AL _].
  apply Forall_allowed_clean in AL. split; [|now intros ->]. intro Q. apply app_inv_head in Q. apply as_sent_inj in Q; [exact Q| |now apply pipeline_all_clean].
  clear - AL. induction ps as [|p ps IH]; [constructor|]. cbn [concat map] in *. apply all_clean_app in AL. destruct AL as [A1 A2]. apply all_clean_app. split; [now apply pipeline_all_clean|now apply IH].
Qed.

(** writeln!: the formatted text and a line end. *)
Theorem writeln_written : forall bom cr ps r w r' w', Forall scalars ps -> writeln (new_writer cr false (below bom)) ps = Some (r, w) -> close w = (r', w') ->
  (r = None <-> Forall allowed (concat ps) /\ starts_ok (concat ps)) /\
  (r = None -> r' = None /\ emitted (inner w') = emitted (inner w) /\ emitted (inner w) = (if bom then [0xFEFF] else []) ++ as_sent cr (concat (map pipeline ps) ++ [0xA])).
Proof.
  intros bom cr ps r w r' w' S E C. unfold writeln in E.
  assert (S1 : Forall scalars (ps ++ [[LF]])) by (apply Forall_app; split; [exact S|repeat constructor]).
  assert (LS : is_basic_text_start LF = true) by (vm_compute; reflexivity). assert (LE : is_basic_text_end LF = true) by (vm_compute; reflexivity).
  assert (LA : Forall allowed [LF]) by (apply Forall_allowed_clean, Forall_forall; rewrite <- forallb_forall; vm_compute; reflexivity).
  assert (LP : pipeline [LF] = [0xA]) by (vm_compute; reflexivity).
  assert (CC : concat (ps ++ [[LF]]) = concat ps ++ [LF]) by (rewrite concat_app; cbn [concat]; now rewrite app_nil_r).
  destruct (fmt_written _ _ _ _ _ _ _ S1 E C) as (A & B & D). rewrite CC in A, B.
  assert (SO : starts_ok (concat ps ++ [LF]) <-> starts_ok (concat ps)).
  { split; intros H c t Q; [apply (H c (t ++ [LF])); now rewrite Q|]. destruct (concat ps) as [|x u]; cbn [app] in Q; injection Q as <- <-; [exact LS|exact (H x u eq_refl)]. }
  rewrite SO, Forall_app in A. split; [tauto|]. intro Z. destruct (D Z) as [D1 D2].
  assert (ST : strict_stream (concat ps ++ [LF])).
  { apply A in Z. destruct Z as [[Z1 _] Z2]. split; [split; [now apply SO|split; [|apply Forall_app; auto]]|right; now exists (concat ps)]. intros t c Q. apply app_inj_tail in Q. destruct Q as [_ <-]. exact LE. }
  split; [now apply B|]. split; [exact D2|]. rewrite D1, map_app, concat_app. cbn [map concat]. rewrite app_nil_r, LP. reflexivity.
Qed.

(** * Through a LineWriter *)
Lemma buf_fmt_each : forall f ps b rs b2 r b', each_write f b (map encode_all ps) = Some (rs, b2) -> buf_fmt f b ps = Some (r, b') ->
  (r = None <-> Forall (fun r => r = None) rs) /\ (r = None -> b' = b2).
Proof.
  intros f. induction ps as [|p ps IH]; intros b rs b2 r b' E B; cbn [map each_write buf_fmt] in *.
  - injection E as <- <-. injection B as <- <-. split; [split; [constructor|reflexivity]|reflexivity].
  - destruct (f b (encode_all p)) as [[[e|] b1]|]; [| |discriminate].
    + injection B as <- <-. destruct (each_write f b1 (map encode_all ps)) as [[rs1 b3]|]; [|discriminate]. injection E as <- <-. split; [|discriminate].
      split; [discriminate|]. intro F. apply Forall_inv in F. discriminate.
    + destruct (each_write f b1 (map encode_all ps)) as [[rs1 b3]|] eqn:E1; [|discriminate]. injection E as <- <-. destruct (IH _ _ _ _ _ E1 B) as [I1 I2]. split; [|exact I2].
      rewrite I1. split; [intro; now constructor|intro F; now inversion F].
Qed.
Theorem linewriter_fmt : forall bom cr cap ps r b r' w, Forall scalars ps -> concat ps <> [] -> fits cap ps ->
  buf_fmt lw_write_all (mkbw (new_writer cr false (below bom)) cap []) ps = Some (r, b) -> bw_finish b = Some (r', w) ->
  (r = None /\ r' = None <-> strict_stream (concat ps)) /\ (strict_stream (concat ps) -> emitted (inner w) = (if bom then [0xFEFF] else []) ++ as_sent cr (pipeline (concat ps))).
Proof.
  intros bom cr cap ps r b r' w S NN F B C. set (b0 := mkbw _ _ _) in *.
  destruct (each_write lw_write_all b0 (map encode_all ps)) as [[rs b2]|] eqn:E; [|now apply (each_total _ lw_total) in E].
  destruct (bw_finish b2) as [[r2 w2]|] eqn:C2; [|now apply finish_total in C2].
  destruct (linewriter_stream bom cr cap ps rs b2 r2 w2 S NN F E C2) as [L1 L2]. destruct (buf_fmt_each _ _ _ _ _ _ _ E B) as [K1 K2].
  assert (Q : r = None -> r' = r2 /\ w = w2) by (intro Z; rewrite (K2 Z), C2 in C; injection C as -> ->; auto).
  assert (A : r = None /\ r' = None <-> strict_stream (concat ps)).
  { rewrite <- L1, Forall_app, <- K1. split.
    - intros [Z1 Z2]. split; [exact Z1|]. constructor; [|constructor]. destruct (Q Z1) as [<- _]. exact Z2.
    - intros [Z1 Z2]. split; [exact Z1|]. apply Forall_inv in Z2. destruct (Q Z1) as [-> _]. exact Z2. }
  split; [exact A|]. intro Z. assert (Z1 := proj1 (proj2 A Z)). destruct (Q Z1) as [_ ->]. now apply L2.
Qed.
