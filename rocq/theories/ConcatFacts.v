(** When are two pieces of normalized text normalized together?  Exactly when
    the characters that meet do not compose (for text whose second piece starts
    with a Basic Text starter). *)
From Coq Require Import NArith Arith List Bool Lia ZifyBool ZifyNat ZifyN.
From Verif Require Import Base Ucd UcdTables Norm Chars TextTables TextUtils UcdFacts NormFacts CharFacts DocTable SpecText TextFacts PipelineFacts
  Utf8 Input Output Strings.
Import ListNotations.
Local Open Scope N_scope.
Arguments N.add : simpl never.
Arguments N.leb : simpl never.
Arguments N.ltb : simpl never.
Arguments N.eqb : simpl never.

Lemma last_opt_cons : forall A (x : A) l, l <> [] -> last_opt (x :: l) = last_opt l.
Proof. intros A x [|y l] H; [congruence|reflexivity]. Qed.
Lemma last_opt_app : forall A (a b : list A), b <> [] -> last_opt (a ++ b) = last_opt b.
Proof.
  induction a as [|x a IH]; intros b H; [reflexivity|]. cbn [app]. rewrite last_opt_cons; [now apply IH|]. destruct a; [exact H|discriminate].
Qed.
Lemma rc_not_nil : forall s k buf l, rc k buf l s <> [].
Proof.
  induction s as [|ch s IH]; intros k buf l; cbn [rc]; [discriminate|].
  destruct l as [lc|].
  - destruct (_ <=? _); [destruct (_ =? 0); [discriminate|apply IH]|]. destruct (compose k ch); apply IH.
  - destruct (compose k ch); [apply IH|]. destruct (_ =? 0); [discriminate|apply IH].
Qed.
Lemma rc_split_at : forall x k buf l c t, ccc c = 0 -> (l = None -> buf = []) ->
  (forall y, last_opt (rc k buf l x) = Some y -> compose y c = None) ->
  rc k buf l (x ++ c :: t) = rc k buf l x ++ recomp (c :: t).
Proof.
  induction x as [|ch x IH]; intros k buf l c t Hc HL HN.
  - cbn [app]. cbn [rc] in *. rewrite Hc. rewrite recomp_starter by exact Hc.
    destruct l as [lc|].
    + assert (0 <=? lc = true) as -> by lia. reflexivity.
    + rewrite HL in * by reflexivity. rewrite (HN k eq_refl). reflexivity.
  - cbn [app]. cbn [rc] in *. destruct l as [lc|].
    + destruct (ccc ch <=? lc).
      * destruct (ccc ch =? 0).
        -- rewrite app_comm_cons, last_opt_app in HN by apply rc_not_nil. rewrite IH by auto. cbn [app]. now rewrite <- app_assoc.
        -- apply IH; auto. discriminate.
      * destruct (compose k ch); apply IH; auto; discriminate.
    + rewrite HL in * by reflexivity. destruct (compose k ch).
      * apply IH; auto.
      * destruct (ccc ch =? 0); [rewrite last_opt_cons in HN by apply rc_not_nil; rewrite IH by auto; reflexivity|]. apply IH; auto. discriminate.
Qed.
Lemma recomp_split_at : forall x c t, ccc c = 0 -> (forall y, last_opt (recomp x) = Some y -> compose y c = None) ->
  recomp (x ++ c :: t) = recomp x ++ recomp (c :: t).
Proof.
  induction x as [|ch x IH]; intros c t Hc HN; [reflexivity|].
  cbn [app]. cbn [recomp] in *. destruct (ccc ch =? 0).
  - apply rc_split_at; auto.
  - rewrite IH; [reflexivity|exact Hc|]. intros y HY. apply HN. destruct (recomp x); [discriminate|]. now rewrite last_opt_cons.
Qed.
Lemma nfc_app_at : forall a c b, ccc (cdh c) = 0 -> (forall y, last_opt (nfc a) = Some y -> compose y (cdh c) = None) ->
  nfc (a ++ c :: b) = nfc a ++ nfc (c :: b).
Proof.
  intros a c b H1 H2. destruct (cd_cons c) as [t E].
  unfold nfc. rewrite nfd_app_starter by (cbn; rewrite E; exact H1).
  assert (E2 : nfd (c :: b) = cdh c :: order (t ++ flat_map cd b)).
  { unfold nfd. cbn [flat_map]. rewrite E. cbn [app]. rewrite order_cons, ins_starter by exact H1. reflexivity. }
  rewrite E2. now apply recomp_split_at.
Qed.

(** * Start characters *)
Transparent ccc cd kd compose qc_nfc is_public_assigned cjk_variant.
Lemma chk_canon_kd_start : tall (fun (c : N) (d : list N) => negb (Nat.eqb (length d) 0) && implb (is_basic_text_start c) (ccc (hd 0 d) =? 0)) trie_canon = true.
Proof. vm_compute. reflexivity. Qed.
Lemma chk_compat_kd_start : tall (fun (c : N) (d : list N) => negb (Nat.eqb (length d) 0) && implb (is_basic_text_start c) (ccc (hd 0 d) =? 0)) trie_compat = true.
Proof. vm_compute. reflexivity. Qed.
Lemma chk_canon_jamo : tall (fun (c : N) (d : list N) => negb (is_jamo (hd 0 d))) trie_canon = true.
Proof. vm_compute. reflexivity. Qed.
Definition comp_second_start (a b r : N) : bool := negb (is_basic_text_start b).
Lemma chk_comp_second : tall (fun a l => forallb (fun br => comp_second_start a (fst br) (snd br)) l) trie_comp = true.
Proof. vm_compute. reflexivity. Qed.
Global Opaque ccc cd kd compose qc_nfc is_public_assigned cjk_variant.

Lemma start_pat : forall c, is_basic_text_start c = true -> exists t, pat c = false :: t.
Proof.
  intros c H. assert (K : kd c <> [] /\ ccc (hd 0 (kd c)) = 0).
  { destruct (kd_cases c) as [E|[[A E]|[E|E]]].
    - rewrite E. split; [discriminate|]. cbn. now apply start_ccc.
    - assert (NE : decompose_hangul c <> []) by (unfold decompose_hangul; destruct (_ =? 0); discriminate).
      rewrite E. split; [exact NE|]. destruct (decompose_hangul c) as [|x t] eqn:D; [congruence|]. cbn.
      apply ccc_jamo, (hangul_jamo c); [exact A|]. rewrite D. now left.
    - apply (canon_lift _ chk_canon_kd_start) in E. cbn beta in E. apply andb_prop in E. destruct E as [E1 E]. rewrite H in E. cbn in E. apply N.eqb_eq in E.
      split; [|exact E]. destruct (kd c); [discriminate|discriminate].
    - apply (compat_lift _ chk_compat_kd_start) in E. cbn beta in E. apply andb_prop in E. destruct E as [E1 E]. rewrite H in E. cbn in E. apply N.eqb_eq in E.
      split; [|exact E]. destruct (kd c); [discriminate|discriminate]. }
  destruct K as [NN K].
  unfold pat. destruct (kd c) as [|x t]; [congruence|]. cbn in K. exists (map nonstarter t). cbn. unfold nonstarter. now rewrite K.
Qed.

(** the characters that compose with a preceding one and may start a text:
    Hangul vowels and trailing consonants *)
Definition hangul_tail (c : N) : bool := in_range c 0x1161 0x1175 || in_range c 0x11A8 0x11C2.
Lemma start_second : forall x c r, is_basic_text_start c = true -> compose x c = Some r -> is_hangul_syllable r = true /\ hangul_tail c = true.
Proof.
  intros x c r HS H. destruct (compose_inv _ _ _ H) as [(H1 & H2 & ->)|[(H1 & H2 & H3 & ->)|H1]].
  - split; [now apply LV_decompose|]. unfold hangul_tail, in_range, V_BASE, V_COUNT in *. lia.
  - split; [now apply LVT_decompose|]. unfold hangul_tail, in_range, T_BASE, T_COUNT in *. lia.
  - apply (comp_lift comp_second_start chk_comp_second) in H1. unfold comp_second_start in H1. now rewrite HS in H1.
Qed.
Lemma start_cdh_ccc : forall c, is_basic_text_start c = true -> ccc (cdh c) = 0.
Proof. intros c H. apply start_ccc. now apply start_cdh. Qed.
(** a start character with a decomposition never composes with what precedes *)
Lemma start_cdh_second : forall x c, is_basic_text_start c = true -> compose x c = None -> compose x (cdh c) = None.
Proof.
  intros x c HS H. destruct (N.eq_dec (cdh c) c) as [->|NE]; [exact H|]. destruct (compose x (cdh c)) as [r|] eqn:E; [|reflexivity]. exfalso.
  destruct (start_second _ _ _ (start_cdh _ HS) E) as [_ HT].
  destruct (cd_cases c) as [E1|[[A E1]|E1]].
  - unfold cdh in NE. rewrite E1 in NE. cbn in NE. congruence.
  - unfold cdh in HT. rewrite E1 in HT. unfold decompose_hangul in HT. unfold hangul_tail, is_hangul_syllable, in_range, L_BASE, S_BASE, S_COUNT, N_COUNT, V_COUNT, T_COUNT in *.
    assert (H0 : (c - 44032) / 588 < 19) by (apply N.div_lt_upper_bound; clear - A; lia). change (21 * 28) with 588 in *.
    destruct (_ =? 0) in HT; cbn [hd] in HT; clear - HT H0; lia.
  - apply (canon_lift _ chk_canon_jamo) in E1. cbn beta in E1. fold (cdh c) in E1.
    assert (J : is_jamo (cdh c) = true) by (unfold hangul_tail, is_jamo, in_range in *; clear - HT; lia). now rewrite J in E1.
Qed.

(** * The seam *)
Definition seam_ok (a b : list N) : Prop := forall t x c u, a = t ++ [x] -> b = c :: u -> compose x c = None.

Lemma ss_seam : forall a c b, is_basic_text_start c = true -> stream_safe a = a -> stream_safe (c :: b) = c :: b ->
  stream_safe (a ++ c :: b) = a ++ c :: b.
Proof.
  intros a c b HS HA HB. apply ss_ok_iff. apply ss_ok_iff in HA, HB. rewrite ss_ok_runs in * by lia.
  rewrite flat_map_app, runs_ok_app, HA. cbn [andb flat_map] in *. destruct (start_pat c HS) as [t E]. rewrite E in *. cbn [app runs_ok] in *. exact HB.
Qed.
Lemma nfc_ss_seam : forall a b, starts_ok b -> nfc_ss a -> nfc_ss b -> seam_ok a b -> nfc_ss (a ++ b).
Proof.
  intros a [|c b] HS HA HB HX; [now rewrite app_nil_r|]. pose proof (HS c b eq_refl) as HC. split.
  - rewrite nfc_app_at.
    + now rewrite (proj1 HA), (proj1 HB).
    + now apply start_cdh_ccc.
    + intros y HY. rewrite (proj1 HA) in HY. apply last_opt_some in HY. destruct HY as [t ->]. apply start_cdh_second; [exact HC|].
      exact (HX t y c b eq_refl eq_refl).
  - apply ss_seam; [exact HC|apply HA|apply HB].
Qed.
Lemma nfc_ss_seam_inv : forall a b, starts_ok b -> nfc_ss (a ++ b) -> seam_ok a b.
Proof.
  intros a b HS H t x c u -> ->. rewrite <- app_assoc in H. apply nfc_ss_app in H. destruct H as [_ H].
  change ([x] ++ c :: u) with ([x; c] ++ u) in H. apply nfc_ss_app in H. destruct H as [[H _] _].
  destruct (compose x c) as [r|] eqn:E; [exfalso|reflexivity].
  destruct (start_second _ _ _ (HS c u eq_refl) E) as [HR _].
  assert (A : nfc [r] = [r]).
  { apply nfc_yes; [|constructor; [now apply qc_hangul|constructor]]. cbn. auto. }
  assert (B : nfc [r] = nfc [x; c]).
  { unfold nfc, nfd. cbn [flat_map]. rewrite (compose_cd _ _ _ E), !app_nil_r. reflexivity. }
  rewrite A, H in B. discriminate.
Qed.
Theorem seam_iff : forall a b, starts_ok b -> nfc_ss a -> nfc_ss b -> nfc_ss (a ++ b) <-> seam_ok a b.
Proof. intros a b HS HA HB. split; [now apply nfc_ss_seam_inv|now apply nfc_ss_seam]. Qed.
