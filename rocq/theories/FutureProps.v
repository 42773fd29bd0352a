(** Isolated text under later versions of Unicode. *)
From Coq Require Import NArith Arith List Bool Lia ZifyBool ZifyNat ZifyN.
From Verif Require Import Base Ucd Norm Chars TextUtils UcdFacts NormFacts CharFacts SpecText TextFacts PipelineFacts IsoFacts KeepFacts Future.
Import ListNotations.
Local Open Scope N_scope.
Arguments N.add : simpl never.
Arguments N.leb : simpl never.
Arguments N.ltb : simpl never.
Arguments N.eqb : simpl never.

(** * The present version *)
Lemma ins_present : forall l x, ins_in present x l = ins x l.
Proof. induction l as [|y l IH]; intro x; cbn; [reflexivity|]. now rewrite IH. Qed.
Lemma sort_present : forall l, sort_in present l = sort_pending l.
Proof. induction l as [|x l IH]; [reflexivity|]. cbn [sort_in sort_pending fold_right]. fold (sort_in present l). fold (sort_pending l). now rewrite IH, ins_present. Qed.
Lemma order_present : forall s p, order_go_in present p s = order_go p s.
Proof. induction s as [|c s IH]; intro p; cbn; rewrite ?sort_present; [reflexivity|]. now rewrite !IH. Qed.
Lemma rc_present : forall s k buf l, rc_in present k buf l s = rc k buf l s.
Proof. induction s as [|c s IH]; intros k buf l; [reflexivity|]. cbn [rc_in rc]. cbn [t_ccc t_compose present]. destruct l; [destruct (_ <=? _), (ccc c =? 0), (compose k c)|destruct (compose k c), (ccc c =? 0)]; now rewrite ?IH. Qed.
Theorem nfc_present : forall s, nfc_in present s = nfc s.
Proof.
  intro s. unfold nfc_in, nfc, nfd_in, nfd, order_in, order. rewrite order_present. cbn [t_cd present]. generalize (order_go [] (flat_map cd s)). intro l.
  induction l as [|c l IH]; [reflexivity|]. cbn [recomp_in recomp t_ccc present]. now rewrite IH, rc_present.
Qed.
Lemma leading_present : forall l, leading_in present l = leading l.
Proof. induction l as [|c l IH]; [reflexivity|]. cbn [leading_in leading]. unfold nonstarter. cbn [t_ccc present]. now rewrite IH. Qed.
Theorem stream_safe_present : forall s, stream_safe_in present s = stream_safe s.
Proof.
  intro s. unfold stream_safe_in, stream_safe. generalize 0%nat. induction s as [|c s IH]; intro n; [reflexivity|]. cbn [stream_safe_go_in stream_safe_go].
  assert (CN : forall m, count_next_in present m c = count_next m c) by (intro m; unfold count_next_in, count_next, cl_leading_in, cl_leading, cl_trailing_in, cl_trailing, cl_len; now rewrite !leading_present).
  rewrite !IH, !CN. unfold cl_leading_in, cl_leading. now rewrite leading_present.
Qed.

Transparent ccc cd kd compose qc_nfc is_public_assigned cjk_variant.
Lemma chk_compat_assigned : tall (fun (c : N) (d : list N) => forallb is_public_assigned d) trie_compat = true.
Proof. vm_compute. reflexivity. Qed.
Global Opaque ccc cd kd compose qc_nfc is_public_assigned cjk_variant.
Lemma kd_assigned : forall c, is_assigned c = true -> all_assigned (kd c).
Proof.
  intros c H. destruct (kd_cases c) as [E|[[A E]|[E|E]]].
  - rewrite E. constructor; [exact H|constructor].
  - rewrite E. apply Forall_forall. intros x HX. unfold is_assigned. rewrite (jamo_public x); [reflexivity|]. exact (hangul_jamo _ _ A HX).
  - apply (tall_spec _ _ _ _ _ chk_canon_assigned) in E. rewrite forallb_forall in E. apply Forall_forall. intros x HX. unfold is_assigned. now rewrite E.
  - apply (tall_spec _ _ _ _ _ chk_compat_assigned) in E. rewrite forallb_forall in E. apply Forall_forall. intros x HX. unfold is_assigned. now rewrite E.
Qed.

Section Later.
  Variable t : ucd.
  Hypothesis L : later t.

  (** * Text of assigned characters *)
  Lemma ins_same : forall l x, is_assigned x = true -> all_assigned l -> ins_in t x l = ins x l.
  Proof.
    induction l as [|y l IH]; intros x X A; [reflexivity|]. inversion A as [|? ? Y A']; subst. cbn. rewrite (later_ccc t L x X), (later_ccc t L y Y). now rewrite IH.
  Qed.
  Lemma sort_same : forall l, all_assigned l -> sort_in t l = sort_pending l /\ all_assigned (sort_pending l).
  Proof.
    induction 1 as [|x l X A [IH1 IH2]]; [split; [reflexivity|constructor]|]. cbn [sort_in sort_pending fold_right]. fold (sort_in t l). fold (sort_pending l).
    rewrite IH1. split; [now apply ins_same|]. apply Forall_forall. intros y HY. apply in_ins in HY. destruct HY as [->|HY]; [exact X|]. rewrite Forall_forall in IH2. now apply IH2.
  Qed.
  Lemma order_same : forall s p, all_assigned p -> all_assigned s -> order_go_in t p s = order_go p s.
  Proof.
    induction s as [|c s IH]; intros p P A; cbn [order_go_in order_go]; [now apply sort_same|]. inversion A as [|? ? C A']; subst.
    rewrite (later_ccc t L c C). rewrite (proj1 (sort_same p P)). destruct (ccc c =? 0); [rewrite IH; auto|]. apply IH; [|exact A']. apply Forall_app. auto.
  Qed.
  Lemma rc_same : forall s k buf l, is_assigned k = true -> all_assigned s -> rc_in t k buf l s = rc k buf l s.
  Proof.
    induction s as [|c s IH]; intros k buf l K A; [reflexivity|]. inversion A as [|? ? C A']; subst. cbn [rc_in rc]. rewrite (later_ccc t L c C), (later_compose t L k c K C).
    pose proof (compose_assigned k c) as CA.
    destruct l as [lc|]; [destruct (ccc c <=? lc), (ccc c =? 0)|]; [now rewrite IH|now rewrite IH| | |]; destruct (compose k c) as [r|]; rewrite ?IH; auto.
  Qed.
  Lemma recomp_same : forall s, all_assigned s -> recomp_in t s = recomp s.
  Proof.
    induction 1 as [|c s C A IH]; [reflexivity|]. cbn [recomp_in recomp]. rewrite (later_ccc t L c C), IH. now rewrite rc_same.
  Qed.
  Lemma cds_same : forall s, all_assigned s -> flat_map (t_cd t) s = flat_map cd s /\ all_assigned (flat_map cd s).
  Proof.
    induction 1 as [|c s C A [IH1 IH2]]; [split; [reflexivity|constructor]|]. cbn [flat_map]. rewrite (later_cd t L c C), IH1. split; [reflexivity|]. apply Forall_app. split; [|exact IH2].
    apply Forall_forall. intros x HX. now apply (cd_assigned c).
  Qed.
  Lemma nfc_same : forall s, all_assigned s -> nfc_in t s = nfc s.
  Proof.
    intros s A. destruct (cds_same s A) as [E1 E2]. unfold nfc_in, nfc, nfd_in, nfd, order_in, order. rewrite E1, order_same; [|constructor|exact E2].
    apply recomp_same. fold (order (flat_map cd s)). apply Forall_forall. intros x HX. rewrite in_order in HX. rewrite Forall_forall in E2. now apply E2.
  Qed.

  (** * U+34F separates *)
  Lemma cgj_ccc : t_ccc t CGJ = 0.
  Proof. rewrite (later_ccc t L CGJ assigned_CGJ). apply (b_inert _ boring_CGJ). Qed.
  Lemma cgj_cd : t_cd t CGJ = [CGJ].
  Proof. rewrite (later_cd t L CGJ assigned_CGJ). apply (b_inert _ boring_CGJ). Qed.
  Lemma ins_in_cgj : forall x l r, ins_in t x (l ++ CGJ :: r) = ins_in t x l ++ CGJ :: r.
  Proof.
    intros x l r. induction l as [|y l IH]; cbn [app ins_in]; [now rewrite cgj_ccc|]. destruct (negb _ && _); cbn [app]; [now rewrite IH|reflexivity].
  Qed.
  Lemma sort_in_starter : forall c l, t_ccc t c = 0 -> ins_in t c l = c :: l.
  Proof. intros c [|y l] H; cbn [ins_in]; [reflexivity|]. rewrite H. assert (t_ccc t y <? 0 = false) as -> by lia. now rewrite andb_false_r. Qed.
  Lemma fold_in_split : forall a l c r, t_ccc t c = 0 -> fold_right (ins_in t) (l ++ c :: r) a = fold_right (ins_in t) l a ++ c :: r.
  Proof.
    intros a l c r H. induction a as [|x a IH]; cbn [fold_right]; [reflexivity|]. rewrite IH. generalize (fold_right (ins_in t) l a). intro m.
    induction m as [|y m IHm]; cbn [app ins_in]; [now rewrite H|]. destruct (negb _ && _); cbn [app]; [now rewrite IHm|reflexivity].
  Qed.
  Lemma order_in_fold : forall s p, order_go_in t p s = fold_right (ins_in t) (fold_right (ins_in t) [] s) p.
  Proof.
    induction s as [|c s IH]; intro p; cbn [order_go_in fold_right]; [reflexivity|]. destruct (t_ccc t c =? 0) eqn:E.
    - rewrite IH. cbn [fold_right]. rewrite (sort_in_starter c) by lia. symmetry. apply (fold_in_split p [] c). lia.
    - rewrite IH, fold_right_app. reflexivity.
  Qed.
  Lemma order_in_cgj : forall a b, order_in t (a ++ CGJ :: b) = order_in t a ++ CGJ :: order_in t b.
  Proof.
    intros a b. unfold order_in. rewrite !order_in_fold. cbn [fold_right]. rewrite fold_right_app. cbn [fold_right]. rewrite sort_in_starter by apply cgj_ccc.
    apply (fold_in_split a [] CGJ). apply cgj_ccc.
  Qed.
  Lemma rc_in_cgj : forall x k buf l r, (l = None -> buf = []) -> rc_in t k buf l (x ++ CGJ :: r) = rc_in t k buf l x ++ rc_in t CGJ [] None r.
  Proof.
    induction x as [|ch x IH]; intros k buf l r HL; cbn [app rc_in].
    - pose proof (proj2 (later_cgj t L k)) as E. fold CGJ in E. rewrite E, cgj_ccc. destruct l as [lc|]; [assert (0 <=? lc = true) as -> by lia; reflexivity|now rewrite HL].
    - destruct l as [lc|].
      + destruct (t_ccc t ch <=? lc).
        * destruct (t_ccc t ch =? 0); [rewrite IH by auto; cbn [app]; now rewrite <- app_assoc|]. apply IH. discriminate.
        * destruct (t_compose t k ch); apply IH; discriminate.
      + rewrite HL by reflexivity. destruct (t_compose t k ch); [now apply IH|]. destruct (t_ccc t ch =? 0); [now rewrite IH by auto|]. apply IH. discriminate.
  Qed.
  Lemma rc_in_inert : forall s buf l, (l = None -> buf = []) -> rc_in t CGJ buf l s = CGJ :: buf ++ recomp_in t s.
  Proof.
    induction s as [|ch s IH]; intros buf l HL; cbn [rc_in recomp_in]; [now rewrite app_nil_r|]. pose proof (proj1 (later_cgj t L ch)) as E0. fold CGJ in E0. rewrite E0. destruct l as [lc|].
    - destruct (t_ccc t ch =? 0) eqn:E.
      + assert (t_ccc t ch <=? lc = true) as -> by lia. reflexivity.
      + destruct (t_ccc t ch <=? lc); rewrite IH by discriminate; now rewrite <- app_assoc.
    - destruct (t_ccc t ch =? 0) eqn:E; [now rewrite HL|]. rewrite IH by discriminate. now rewrite <- app_assoc.
  Qed.
  Lemma recomp_in_cgj : forall a b, recomp_in t (a ++ CGJ :: b) = recomp_in t a ++ CGJ :: recomp_in t b.
  Proof.
    induction a as [|ch a IH]; intro b; cbn [app recomp_in].
    - rewrite cgj_ccc. cbn [N.eqb]. change (0 =? 0) with true. cbn [app]. now rewrite rc_in_inert.
    - destruct (t_ccc t ch =? 0); [|now rewrite IH]. rewrite rc_in_cgj by auto. now rewrite rc_in_inert.
  Qed.
  Lemma nfc_in_cgj : forall a b, nfc_in t (a ++ CGJ :: b) = nfc_in t a ++ CGJ :: nfc_in t b.
  Proof.
    intros a b. unfold nfc_in, nfd_in. rewrite flat_map_app. cbn [flat_map]. rewrite cgj_cd. cbn [app]. rewrite order_in_cgj. apply recomp_in_cgj.
  Qed.
  Lemma nfc_in_single : forall c, t_cd t c = [c] -> nfc_in t [c] = [c].
  Proof. intros c E. unfold nfc_in, nfd_in. cbn [flat_map]. rewrite E. cbn [app]. unfold order_in, sort_in. cbn [order_go_in sort_in fold_right]. destruct (t_ccc t c =? 0) eqn:Z; cbn [app order_go_in fold_right ins_in recomp_in rc_in sort_in]; unfold sort_in; cbn [app fold_right ins_in recomp_in rc_in]; now rewrite Z. Qed.
  Lemma nfc_in_nonnil : forall c, nfc_in t [c] <> [].
  Proof.
    intro c. unfold nfc_in, nfd_in. cbn [flat_map]. rewrite app_nil_r. pose proof (later_nonempty t L c) as NE. destruct (t_cd t c) as [|x l]; [congruence|].
    unfold order_in. rewrite order_in_fold. cbn [fold_right]. destruct (fold_right (ins_in t) [] l) as [|y m]; cbn [ins_in].
    - cbn [recomp_in]. destruct (_ =? 0); discriminate.
    - assert (R : forall z r, recomp_in t (z :: r) <> []).
      { intros z r. cbn [recomp_in]. destruct (t_ccc t z =? 0); [|discriminate]. enough (RC : forall z b o, rc_in t z b o r <> []) by apply RC. clear.
        induction r as [|w r IH]; intros z b o; cbn [rc_in]; [discriminate|]. destruct o as [q|]; [destruct (t_ccc t w <=? q), (t_ccc t w =? 0), (t_compose t z w)|destruct (t_compose t z w), (t_ccc t w =? 0)]; try apply IH; discriminate. }
      destruct (_ && _); apply R.
  Qed.

  (** * Isolated text *)
  Inductive guarded : list N -> Prop :=
  | g_all : forall s, all_assigned s -> guarded s
  | g_step : forall a c b, all_assigned a -> is_assigned c = false -> guarded (CGJ :: b) -> guarded (a ++ CGJ :: c :: CGJ :: b)
  | g_end : forall a c, all_assigned a -> is_assigned c = false -> guarded (a ++ [CGJ; c]).
  Lemma first_unassigned : forall s, all_assigned s \/ exists a c b, s = a ++ c :: b /\ all_assigned a /\ is_assigned c = false.
  Proof.
    induction s as [|x s IH]; [left; constructor|]. destruct (is_assigned x) eqn:X.
    - destruct IH as [A|(a & c & b & -> & A & C)]; [left; now constructor|]. right. exists (x :: a), c, b. split; [reflexivity|]. split; [now constructor|exact C].
    - right. exists [], x, s. split; [reflexivity|]. split; [constructor|exact X].
  Qed.
  Lemma preceded_tail : forall a c b, preceded (a ++ c :: CGJ :: b) -> preceded (CGJ :: b).
  Proof.
    intros a c b P x d y EX D. destruct (P (a ++ c :: x) d y) as [p EP]; [rewrite EX, <- app_assoc; reflexivity|exact D|].
    destruct x as [|x0 x]; [injection EX as EX _; rewrite <- EX in D; rewrite assigned_CGJ in D; discriminate|].
    destruct (@exists_last _ (x0 :: x) ltac:(discriminate)) as (q & z & EQ). exists q. rewrite EQ in EP |- *. rewrite app_comm_cons, app_assoc in EP. apply app_inj_tail in EP. destruct EP as [_ ->]. reflexivity.
  Qed.
  Lemma guarded_or_not : forall s, preceded s ->
    guarded s \/ exists a c d b, s = a ++ CGJ :: c :: d :: b /\ guarded a /\ is_assigned c = false /\ is_assigned d = true /\ d <> CGJ.
  Proof.
    intro s. remember (length s) as n eqn:E. revert s E. induction n as [n IH] using lt_wf_ind. intros s E P.
    destruct (first_unassigned s) as [A|(a & c & b & -> & A & C)]; [left; now apply g_all|].
    destruct (P a c b eq_refl C) as [a' ->]. fold CGJ in *. apply Forall_app in A. destruct A as [A _]. rewrite <- app_assoc in *. cbn [app] in *.
    destruct b as [|d b]; [left; now apply g_end|]. destruct (N.eq_dec d CGJ) as [->|D].
    - destruct (IH (length (CGJ :: b))) with (s := CGJ :: b) as [G|(x & u & v & y & EX & G & U & V & W)]; [subst n; rewrite !app_length; cbn [length]; lia|reflexivity| | |].
      + apply (preceded_tail (a' ++ [CGJ]) c). rewrite <- app_assoc. exact P.
      + left. now apply g_step.
      + right. destruct x as [|x0 x].
        * injection EX as ->. exists (a' ++ [CGJ; c]), u, v, y. split; [rewrite <- app_assoc; reflexivity|]. split; [now apply g_end|auto].
        * injection EX as <- ->. exists (a' ++ CGJ :: c :: CGJ :: x), u, v, y. split; [rewrite <- app_assoc; reflexivity|]. split; [now apply g_step|auto].
    - right. exists a', c, d, b. split; [reflexivity|]. split; [now apply g_all|]. split; [exact C|]. split; [|exact D].
      destruct (is_assigned d) eqn:ED; [reflexivity|]. destruct (P (a' ++ [CGJ; c]) d b) as [p EP]; [rewrite <- app_assoc; reflexivity|exact ED|].
      change (a' ++ [CGJ; c]) with (a' ++ [CGJ] ++ [c]) in EP. rewrite app_assoc in EP. apply app_inj_tail in EP. destruct EP as [_ ->]. change (is_assigned CGJ = false) in C. now rewrite assigned_CGJ in C.
  Qed.
  Lemma followed_guarded : forall s, preceded s -> followed s -> guarded s.
  Proof.
    intros s P F. destruct (guarded_or_not s P) as [G|(a & c & d & b & -> & _ & C & _ & D)]; [exact G|]. elim D. apply (F (a ++ [CGJ]) c d b); [rewrite <- app_assoc; reflexivity|exact C].
  Qed.
  Lemma isolated_followed : forall s, isolated s -> preceded s /\ followed s.
  Proof.
    intros s I. split; [intros a c b E C; apply (I a c b E C)|]. intros a c d b E C. destruct (I a c (d :: b) E C) as [_ [b' EB]]. now injection EB as ->.
  Qed.
  Lemma isolated_guarded : forall s, isolated s -> guarded s.
  Proof. intros s I. apply followed_guarded; now apply isolated_followed. Qed.

  (** what the later version makes of it *)
  Definition stays (c : N) : list N := if is_assigned c then [c] else nfc_in t [c].
  Lemma stays_assigned : forall s, all_assigned s -> flat_map stays s = s.
  Proof. induction 1 as [|c s C A IH]; [reflexivity|]. cbn [flat_map]. rewrite IH. unfold stays. now rewrite C. Qed.
  Lemma nfc_in_nil : nfc_in t [] = [].
  Proof. reflexivity. Qed.
  Lemma guarded_nfc : forall s, guarded s -> nfc s = s -> nfc_in t s = flat_map stays s.
  Proof.
    induction 1 as [s A|a c b A C G IH|a c A C]; intro E; [now rewrite nfc_same, E, stays_assigned| |].
    rewrite nfc_in_cgj. rewrite flat_map_app. rewrite nfc_same by exact A. rewrite (nfc_prefix _ _ E), stays_assigned by exact A. f_equal.
    change (c :: CGJ :: b) with ([c] ++ CGJ :: b). rewrite nfc_in_cgj.
    assert (EB : nfc (CGJ :: b) = CGJ :: b) by (apply (nfc_suffix (a ++ [CGJ; c])); rewrite <- app_assoc; exact E).
    specialize (IH EB). change (CGJ :: b) with ([] ++ CGJ :: b) in IH at 1. rewrite nfc_in_cgj, nfc_in_nil in IH. cbn [app] in IH. rewrite IH.
    assert (S1 : stays CGJ = [CGJ]) by (unfold stays; now rewrite assigned_CGJ). assert (S2 : stays c = nfc_in t [c]) by (unfold stays; now rewrite C).
    cbn [flat_map app]. rewrite S1, S2. reflexivity.
    rewrite nfc_in_cgj. rewrite flat_map_app. rewrite nfc_same by exact A. rewrite (nfc_prefix _ _ E), stays_assigned by exact A. f_equal.
    assert (S1 : stays CGJ = [CGJ]) by (unfold stays; now rewrite assigned_CGJ). assert (S2 : stays c = nfc_in t [c]) by (unfold stays; now rewrite C).
    cbn [flat_map app]. rewrite S1, S2, app_nil_r. reflexivity.
  Qed.
  Theorem isolated_nfc : forall s, isolated s -> nfc s = s -> nfc_in t s = flat_map stays s.
  Proof. intros s I. apply guarded_nfc, isolated_guarded, I. Qed.
  Lemma stays_id : forall s, flat_map stays s = s <-> forall c, In c s -> is_assigned c = false -> nfc_in t [c] = [c].
  Proof.
    assert (LE : forall s, (length s <= length (flat_map stays s))%nat).
    { induction s as [|c s IH]; [cbn; lia|]. cbn [flat_map]. rewrite app_length. cbn [length]. unfold stays at 1. destruct (is_assigned c); [cbn [length]; lia|].
      pose proof (nfc_in_nonnil c). destruct (nfc_in t [c]); [congruence|]. cbn [length]. lia. }
    induction s as [|c s IH]; [split; [intros _ c []|reflexivity]|]. cbn [flat_map]. split.
    - intro E. assert (E2 : stays c = [c] /\ flat_map stays s = s).
      { pose proof (LE s) as LS. assert (LC : stays c <> []) by (unfold stays; destruct (is_assigned c); [discriminate|apply nfc_in_nonnil]).
        destruct (stays c) as [|x [|y l]]; [congruence| |].
        - cbn [app] in E. injection E as -> E. auto.
        - apply (f_equal (@length N)) in E. cbn [app length] in E. rewrite app_length in E. lia. }
      destruct E2 as [E1 E2]. intros d [<-|D] HD; [unfold stays in E1; now rewrite HD in E1|]. now apply (proj1 IH).
    - intro H. rewrite (proj2 IH) by (intros; apply H; auto; now right). unfold stays. destruct (is_assigned c) eqn:C; [reflexivity|]. rewrite H; [reflexivity|now left|exact C].
  Qed.

  (** * Stream-Safe *)
  Lemma leading_same : forall l, all_assigned l -> leading_in t l = leading l.
  Proof. induction 1 as [|c l C A IH]; [reflexivity|]. cbn [leading_in leading]. unfold nonstarter. now rewrite (later_ccc t L c C), IH. Qed.
  Lemma leading_in_len : forall l, (leading_in t l <= length l)%nat.
  Proof. induction l as [|c l IH]; cbn [leading_in length]; [lia|]. destruct (negb _); lia. Qed.
  Lemma cl_same : forall c, is_assigned c = true -> cl_leading_in t c = cl_leading c /\ forall n, count_next_in t n c = count_next n c.
  Proof.
    intros c C. pose proof (kd_assigned c C) as A.
    assert (E1 : leading_in t (kd c) = leading (kd c)) by now apply leading_same.
    assert (E2 : leading_in t (rev (kd c)) = leading (rev (kd c))) by (apply leading_same, Forall_rev, A).
    unfold count_next_in, count_next, cl_leading_in, cl_leading, cl_trailing_in, cl_trailing, cl_len. rewrite (later_kd t L c C), E1, E2. split; reflexivity.
  Qed.
  Lemma new_leading : forall c, (cl_leading_in t c <= 30)%nat /\ (count_next_in t 0 c <= 30)%nat.
  Proof.
    intro c. pose proof (later_length t L c). pose proof (leading_in_len (t_kd t c)). pose proof (leading_in_len (rev (t_kd t c))) as R. rewrite rev_length in R.
    unfold count_next_in, cl_leading_in, cl_trailing_in. destruct (_ || _); destruct (Nat.eqb _ _); lia.
  Qed.
  Lemma go_cgj : forall n r, (n <= 30)%nat -> stream_safe_go_in t n (CGJ :: r) = CGJ :: stream_safe_go_in t 0 r.
  Proof.
    intros n r H. cbn [stream_safe_go_in]. destruct (cl_same CGJ assigned_CGJ) as [E1 E2]. destruct (boring_leading _ boring_CGJ) as [E3 E4]. rewrite E1, !E2, E3, !E4.
    unfold MAX_NONSTARTERS. assert (Nat.ltb 30 (n + 0) = false) as -> by lia. reflexivity.
  Qed.
  Lemma go_same : forall a n r, all_assigned a -> (n <= 30)%nat -> ss_ok n a = true -> stream_safe_go_in t n (a ++ CGJ :: r) = a ++ CGJ :: stream_safe_go_in t 0 r.
  Proof.
    induction a as [|c a IH]; intros n r A H O; cbn [app]; [now apply go_cgj|]. inversion A as [|? ? C A']; subst. cbn [stream_safe_go_in ss_ok] in *.
    destruct (cl_same c C) as [E1 E2]. rewrite E1, !E2. apply andb_true_iff in O. destruct O as [O1 O2]. unfold MAX_NONSTARTERS.
    assert (Nat.ltb 30 (n + cl_leading c) = false) as -> by lia. rewrite IH; auto. apply next_le; auto.
  Qed.
  Lemma go_new : forall c b, stream_safe_go_in t 0 (c :: CGJ :: b) = c :: CGJ :: stream_safe_go_in t 0 b.
  Proof.
    intros c b. destruct (new_leading c) as [N1 N2].
    assert (E : stream_safe_go_in t 0 (c :: CGJ :: b) = c :: stream_safe_go_in t (count_next_in t 0 c) (CGJ :: b)).
    { generalize (CGJ :: b). intro r. cbn [stream_safe_go_in]. unfold MAX_NONSTARTERS. assert (Nat.ltb 30 (0 + cl_leading_in t c) = false) as -> by lia. reflexivity. }
    rewrite E, go_cgj by exact N2. reflexivity.
  Qed.
  Lemma guarded_ss : forall s, guarded s -> stream_safe s = s -> stream_safe_in t s = s.
  Proof.
    intros s G E. apply ss_ok_iff in E. revert E. unfold stream_safe_in. induction G as [s A|a c b A C G IH|a c A C]; intro O.
    - assert (E : forall r n, all_assigned r -> ss_ok n r = true -> stream_safe_go_in t n r = r).
      { induction r as [|c r IH]; intros n R O'; [reflexivity|]. inversion R as [|? ? C R']; subst. cbn [stream_safe_go_in ss_ok] in *. destruct (cl_same c C) as [E1 E2]. rewrite E1, !E2.
        apply andb_true_iff in O'. destruct O' as [O1 O2]. unfold MAX_NONSTARTERS. assert (Nat.ltb 30 (n + cl_leading c) = false) as -> by lia. now rewrite IH. }
      now apply E.
    - destruct (ss_ok_app _ _ O) as [O1 _]. change (a ++ CGJ :: c :: CGJ :: b) with (a ++ [CGJ; c] ++ CGJ :: b) in O. rewrite app_assoc in O. destruct (ss_ok_app _ _ O) as [_ O2]. specialize (IH O2).
      rewrite go_same; [|exact A|lia|exact O1]. rewrite go_cgj in IH by lia. rewrite go_new, IH. reflexivity.
    - destruct (ss_ok_app _ _ O) as [O1 _]. rewrite go_same; [|exact A|lia|exact O1]. cbn [stream_safe_go_in]. destruct (new_leading c) as [N1 _].
      unfold MAX_NONSTARTERS. assert (Nat.ltb 30 (0 + cl_leading_in t c) = false) as -> by lia. reflexivity.
  Qed.
  Theorem isolated_ss : forall s, isolated s -> stream_safe s = s -> stream_safe_in t s = s.
  Proof. intros s I. apply guarded_ss, isolated_guarded, I. Qed.
End Later.

(** * Text that is not isolated *)
Transparent ccc cd kd compose qc_nfc is_public_assigned cjk_variant.
Lemma chk_canon_cgj : tall (fun (c : N) (d : list N) => forallb (fun x => negb (x =? CGJ)) d) trie_canon = true.
Proof. vm_compute. reflexivity. Qed.
Global Opaque ccc cd kd compose qc_nfc is_public_assigned cjk_variant.
Lemma cd_only_cgj : forall c, In CGJ (cd c) -> c = CGJ.
Proof.
  intros c H. destruct (cd_cases c) as [E|[[A E]|E]].
  - rewrite E in H. now destruct H as [H|[]].
  - rewrite E in H. pose proof (hangul_jamo _ _ A H) as J. vm_compute in J. discriminate.
  - apply (tall_spec _ _ _ _ _ chk_canon_cgj) in E. rewrite forallb_forall in E. apply E in H. cbn beta in H. rewrite N.eqb_refl in H. discriminate.
Qed.

Section Adding.
  Variables c x r : N.
  Hypothesis C : is_assigned c = false.
  Hypothesis R : is_assigned r = false.
  Hypothesis CR : c <> r.
  Hypothesis X : x <> CGJ.
  Let t := adding c x r.

  Lemma makes : t_compose t c x = Some r.
  Proof. cbn [t adding t_compose]. now rewrite !N.eqb_refl. Qed.
  Lemma adding_later : later t.
  Proof.
    assert (NR : forall y, is_assigned y = true -> (y =? r) = false) by (intros y Y; apply N.eqb_neq; intros ->; congruence).
    split; cbn [t adding t_ccc t_cd t_kd t_compose].
    - reflexivity.
    - intros y Y. now rewrite NR.
    - intros y Y. now rewrite NR.
    - intros a b A B. assert (a =? c = false) as -> by (apply N.eqb_neq; intros ->; congruence). reflexivity.
    - intros y. destruct (y =? r); [discriminate|]. apply cd_nonnil.
    - intros y. destruct (y =? r); [cbn; lia|]. apply kd_len.
    - intro y. split.
      + assert (0x34F =? c = false) as -> by (apply N.eqb_neq; intros <-; pose proof assigned_CGJ as AC; change (is_assigned 0x34F = true) in AC; congruence). apply (b_inert _ boring_CGJ).
      + assert (0x34F =? x = false) as -> by (apply N.eqb_neq; intros E; now apply X). rewrite andb_false_r. destruct (b_inert _ boring_CGJ) as (_ & _ & NS & _). apply NS.
  Qed.
  Lemma adding_alone : forall u, is_assigned u = false -> nfc_in t [u] = [u].
  Proof.
    intros u U. destruct (N.eq_dec u r) as [->|NE].
    - unfold nfc_in, nfd_in. cbn [flat_map t adding t_cd]. rewrite N.eqb_refl. cbn [app].
      assert (O : order_in t [c; x] = [c; x]).
      { unfold order_in. rewrite (order_in_fold t). change (ins_in t c [x] = [c; x]). apply (sort_in_starter t). apply (unassigned_boring c C). }
      fold t. rewrite O. cbn [recomp_in]. cbn [t_ccc t adding]. assert (ccc c =? 0 = true) as -> by (apply N.eqb_eq, (b_inert _ (unassigned_boring c C))).
      cbn [rc_in]. now rewrite makes.
    - apply nfc_in_single. cbn [t adding t_cd]. assert (u =? r = false) as -> by now apply N.eqb_neq. apply (b_inert _ (unassigned_boring u U)).
  Qed.
  Lemma rc_in_head : forall s k b o, (forall y, t_compose t k y = None) -> exists m, rc_in t k b o s = k :: m.
  Proof.
    induction s as [|y s IH]; intros k b o H; cbn [rc_in]; [now exists b|]. rewrite (H y). destruct o as [q|].
    - destruct (t_ccc t y <=? q); [destruct (t_ccc t y =? 0); [eexists; reflexivity|now apply IH]|now apply IH].
    - destruct (t_ccc t y =? 0); [eexists; reflexivity|now apply IH].
  Qed.
  Lemma adding_changes : forall v l, all_assigned v -> nfd v = x :: l -> exists m, nfc_in t (c :: v) = r :: m.
  Proof.
    intros v l A E. unfold nfc_in, nfd_in. cbn [flat_map].
    assert (EC : t_cd t c = [c]) by (cbn [t adding t_cd]; assert (c =? r = false) as -> by (now apply N.eqb_neq); apply (b_inert _ (unassigned_boring c C))).
    assert (ZC : t_ccc t c = 0) by apply (b_inert _ (unassigned_boring c C)).
    rewrite EC. destruct (cds_same t adding_later v A) as [E1 E2]. rewrite E1. cbn [app].
    assert (O : order_in t (c :: flat_map cd v) = c :: x :: l).
    { unfold order_in. rewrite (order_in_fold t). cbn [fold_right]. rewrite sort_in_starter by exact ZC.
      rewrite <- E. unfold nfd. f_equal. change (fold_right (ins_in t) [] (flat_map cd v)) with (fold_right (ins_in t) (fold_right (ins_in t) [] (flat_map cd v)) []).
      rewrite <- (order_in_fold t). unfold order. apply (order_same t adding_later); [constructor|exact E2]. }
    rewrite O. cbn [recomp_in]. rewrite ZC. change (0 =? 0) with true. cbn iota. cbn [rc_in]. rewrite makes. apply rc_in_head.
    intro y. cbn [t adding t_compose]. assert (r =? c = false) as -> by (apply N.eqb_neq; congruence). apply (b_inert _ (unassigned_boring r R)).
  Qed.
End Adding.

Lemma another : forall c, exists r, is_assigned r = false /\ c <> r.
Proof. intro c. destruct (N.eq_dec c 0x378) as [->|E]; [exists 0x379|exists 0x378]; (split; [vm_compute; reflexivity|]); [discriminate|exact E]. Qed.
Lemma assigned_part : forall a d b, preceded (a ++ d :: b) -> is_assigned d = true -> d <> CGJ ->
  exists v w, b = v ++ w /\ all_assigned (d :: v) /\ (w = [] \/ exists w', w = CGJ :: w').
Proof.
  intros a d b P D ND. destruct (first_unassigned b) as [A|(v & u & w & -> & A & U)].
  - exists b, []. split; [now rewrite app_nil_r|]. split; [now constructor|now left].
  - destruct (P (a ++ d :: v) u w) as [q EQ]; [now rewrite <- app_assoc|exact U|]. destruct v as [|v0 v].
    + apply app_inj_tail in EQ. destruct EQ as [_ ->]. now elim ND.
    + destruct (@exists_last _ (v0 :: v) ltac:(discriminate)) as (y & z & EY). rewrite EY in *. rewrite app_comm_cons, app_assoc in EQ. apply app_inj_tail in EQ. destruct EQ as [_ ->].
      exists y, (CGJ :: u :: w). split; [rewrite <- app_assoc; reflexivity|]. apply Forall_app in A. split; [constructor; [exact D|apply A]|]. right. now exists (u :: w).
Qed.
Lemma nfd_head : forall d v, d <> CGJ -> exists x l, nfd (d :: v) = x :: l /\ x <> CGJ.
Proof.
  intros d v D. unfold nfd. cbn [flat_map]. pose proof (cd_nonnil d) as NE. pose proof (cd_only_cgj d) as K. destruct (cd d) as [|y l]; [congruence|]. cbn [app]. rewrite order_cons.
  assert (Y : y <> CGJ) by (intros ->; apply D, K; now left).
  destruct (order (l ++ flat_map cd v)) as [|z m]; cbn [ins]; [now exists y, []|]. destruct (negb (ccc z =? 0) && (ccc z <? ccc y)) eqn:E; [|now exists y, (z :: m)].
  exists z, (ins y m). split; [reflexivity|]. intros ->. apply andb_true_iff in E. destruct E as [E _]. assert (ccc CGJ = 0) as Z by apply (b_inert _ boring_CGJ). rewrite Z in E. discriminate.
Qed.

Theorem guarded_protected : forall s, guarded s -> nfc_ss s -> protected s.
Proof.
  intros s G [E1 E2] t L K. split; [|now apply guarded_ss]. rewrite (guarded_nfc t L s G E1). now apply (stays_id t L).
Qed.
(** For converted text. *)
Theorem protected_exact : forall s, nfc_ss s -> preceded s -> protected s <-> followed s.
Proof.
  intros s NS P. split; [|intro F; apply guarded_protected; [now apply followed_guarded|exact NS]].
  intro PR. destruct (guarded_or_not s P) as [G|(a & c & d & b & -> & G & C & D & ND)].
  - clear - G. intros a c d b E C. revert a E. induction G as [s A|a0 u b0 A U G IH|a0 u A U]; intros a E.
    + subst s. apply Forall_app in A. destruct A as [_ A]. inversion A; congruence.
    + assert (K : forall q p, a0 ++ q = p ++ c :: d :: b -> all_assigned a0 -> exists p', p = a0 ++ p' /\ q = p' ++ c :: d :: b).
      { clear - C. induction a0 as [|z a0 IHz]; intros q p E A; [now exists p|]. inversion A as [|? ? Z A']; subst. destruct p as [|w p]; [injection E as E _; congruence|].
        injection E as <- E. destruct (IHz q p E A') as (p' & -> & ->). now exists p'. }
      destruct (K _ _ E A) as (p & -> & E2). destruct p as [|p0 p]; [injection E2 as E2 _ _; rewrite <- E2 in C; rewrite assigned_CGJ in C; discriminate|].
      injection E2 as <- E2. destruct p as [|p1 p]; [now injection E2 as _ <- _|]. injection E2 as <- E2. now apply (IH p).
    + assert (K : forall q p, a0 ++ q = p ++ c :: d :: b -> all_assigned a0 -> exists p', p = a0 ++ p' /\ q = p' ++ c :: d :: b).
      { clear - C. induction a0 as [|z a0 IHz]; intros q p E A; [now exists p|]. inversion A as [|? ? Z A']; subst. destruct p as [|w p]; [injection E as E _; congruence|].
        injection E as <- E. destruct (IHz q p E A') as (p' & -> & ->). now exists p'. }
      destruct (K _ _ E A) as (p & -> & E2). destruct p as [|p0 p]; [injection E2 as E2 _ _; rewrite <- E2 in C; rewrite assigned_CGJ in C; discriminate|].
      injection E2 as <- E2. destruct p as [|p1 p]; [discriminate|]. destruct p; discriminate.
  - exfalso. destruct (assigned_part (a ++ [CGJ; c]) d b) as (v & w & -> & A & W); [now rewrite <- app_assoc|exact D|exact ND|].
    destruct (nfd_head d v ND) as (x & l & EN & X). destruct (another c) as (r & R & CR).
    pose proof (adding_later c x r C R CR X) as L. destruct (PR _ L) as [E _]; [intros u _ U; now apply adding_alone|].
    destruct (adding_changes c x r C R CR X (d :: v) l A EN) as [m EM].
    assert (ER : exists q, nfc_in (adding c x r) (c :: d :: v ++ w) = r :: q).
    { destruct W as [->|[w' ->]]; [rewrite app_nil_r; eauto|]. change (c :: d :: v ++ CGJ :: w') with ((c :: d :: v) ++ CGJ :: w'). rewrite nfc_in_cgj by exact L. rewrite EM. now exists (m ++ CGJ :: nfc_in (adding c x r) w'). }
    destruct ER as [q EQ]. rewrite nfc_in_cgj, EQ in E by exact L.
    destruct (guarded_protected a G) with (t := adding c x r) as [EA _]; [|exact L|intros u _ U; now apply adding_alone|].
    + destruct NS as [N1 N2]. split; [exact (nfc_prefix _ _ N1)|]. apply ss_ok_iff. apply ss_ok_iff in N2. exact (proj1 (ss_ok_app _ _ N2)).
    + rewrite EA in E. apply app_inv_head in E. injection E as E _. congruence.
Qed.
Theorem stream_protected_exact : forall s, nfc_ss s -> preceded s -> line_terminated s -> protected s <-> isolated s.
Proof.
  intros s NS P T. rewrite protected_exact by assumption. split; [|intro I; now apply isolated_followed].
  intros F a c b E C. split; [now apply (P a c b)|]. destruct b as [|d b]; [|exists b; now rewrite (F a c d b E C)].
  exfalso. destruct T as [->|[u ->]]; [now destruct a|]. apply app_inj_tail in E. destruct E as [_ <-]. vm_compute in C. discriminate.
Qed.
