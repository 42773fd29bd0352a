(** The first character of converted text is a Basic Text starter exactly when
    the first character before was, and the last a Basic Text ender exactly when
    the last before was. *)
From Coq Require Import NArith Arith List Bool Lia ZifyBool ZifyNat ZifyN.
From Verif Require Import Base Ucd UcdTables Norm Chars TextTables TextUtils UcdFacts NormFacts CharFacts SpecText TextFacts PipelineFacts IsoFacts KeepFacts ReadProps.
Import ListNotations.
Local Open Scope N_scope.
Arguments N.add : simpl never.
Arguments N.leb : simpl never.
Arguments N.ltb : simpl never.
Arguments N.eqb : simpl never.

Transparent ccc cd kd compose qc_nfc is_public_assigned cjk_variant.
Lemma chk_canon_nonstart : tall (fun (c : N) (d : list N) => is_basic_text_start c || negb (is_basic_text_start (hd 0 d))) trie_canon = true.
Proof. vm_compute. reflexivity. Qed.
Definition comp_nonstart (a b r : N) : bool := is_basic_text_start a || negb (is_basic_text_start r).
Lemma chk_comp_nonstart : tall (fun a l => forallb (fun br => comp_nonstart a (fst br) (snd br)) l) trie_comp = true.
Proof. vm_compute. reflexivity. Qed.
Lemma chk_cjk_key_start : tall (fun (c : N) (d : N * N) => is_basic_text_start c) trie_cjk = true.
Proof. vm_compute. reflexivity. Qed.
Lemma cjk_key_start : forall c p, cjk_variant c = Some p -> is_basic_text_start c = true.
Proof. intros c p E. apply (tall_spec _ _ _ _ _ chk_cjk_key_start) in E. exact E. Qed.
Lemma chk_nonend_assigned : ranges_all is_assigned ([(ZWJ, ZWJ)] ++ tbl_preceding_repha ++ tbl_consonant_prefixed ++ tbl_prepended_concatenation_mark) = true.
Proof. vm_compute. reflexivity. Qed.
Global Opaque ccc cd kd compose qc_nfc is_public_assigned cjk_variant.

Lemma nonstart_cdh : forall c, is_basic_text_start c = false -> is_basic_text_start (cdh c) = false.
Proof.
  intros c H. unfold cdh. destruct (cd_cases c) as [E|[[A E]|E]].
  - rewrite E. exact H.
  - rewrite (hangul_start _ A) in H. discriminate.
  - apply (canon_lift _ chk_canon_nonstart) in E. cbn beta in E. rewrite H in E. now apply negb_true_iff in E.
Qed.
Lemma nonstart_compose : forall k c r, is_basic_text_start k = false -> compose k c = Some r -> is_basic_text_start r = false.
Proof.
  intros k c r HK H. destruct (compose_inv _ _ _ H) as [(H1 & H2 & ->)|[(H1 & H2 & H3 & ->)|H1]].
  - rewrite jamoL_start in HK by exact H1. discriminate.
  - rewrite hangul_start in HK; [discriminate|]. unfold is_hangul_syllable, in_range, S_BASE, S_COUNT in *. lia.
  - apply (comp_lift comp_nonstart chk_comp_nonstart) in H1. unfold comp_nonstart in H1. rewrite HK in H1. now apply negb_true_iff in H1.
Qed.
Definition hnon (s : list N) : Prop := exists c t, s = c :: t /\ is_basic_text_start c = false.
Lemma rc_nonstart : forall s k buf l, is_basic_text_start k = false -> hnon (rc k buf l s).
Proof.
  induction s as [|ch t IH]; intros k buf l H; cbn [rc]; [exists k, buf; auto|].
  destruct l as [lc|].
  - destruct (ccc ch <=? lc).
    + destruct (ccc ch =? 0); [cbn; eexists _, _; eauto|now apply IH].
    + destruct (compose k ch) as [r|] eqn:E; apply IH; [exact (nonstart_compose _ _ _ H E)|exact H].
  - destruct (compose k ch) as [r|] eqn:E; [apply IH; exact (nonstart_compose _ _ _ H E)|].
    destruct (ccc ch =? 0); [eexists _, _; eauto|now apply IH].
Qed.
Lemma ins_head_ns : forall x l, ccc x <> 0 -> exists y t, ins x l = y :: t /\ ccc y <> 0.
Proof.
  intros x [|y l] H; cbn [ins]; [eauto|]. destruct (_ && _) eqn:E; [|eauto].
  exists y. eexists. split; [reflexivity|]. lia.
Qed.
Lemma nfc_nonstart : forall s, hnon s -> hnon (nfc s).
Proof.
  intros s (c & t & -> & H). pose proof (nonstart_cdh _ H) as HN. destruct (cd_cons c) as [u E].
  destruct (N.eq_dec (ccc (cdh c)) 0) as [Z|NZ].
  - destruct (nfd_cons_hd c t Z) as [v E2]. unfold nfc. rewrite E2, recomp_starter by exact Z. now apply rc_nonstart.
  - unfold nfc, nfd. cbn [flat_map]. rewrite E. cbn [app]. rewrite order_cons.
    destruct (ins_head_ns (cdh c) (order (u ++ flat_map cd t)) NZ) as (y & v & -> & HY). cbn [recomp].
    assert (ccc y =? 0 = false) as -> by lia. exists y. eexists. split; [reflexivity|].
    destruct (is_basic_text_start y) eqn:EY; [|reflexivity]. apply start_ccc in EY. contradiction.
Qed.
Lemma ss_nonstart : forall s, hnon s -> hnon (stream_safe s).
Proof.
  intros s (c & t & -> & H). unfold stream_safe. cbn [stream_safe_go]. pose proof (cl_leading_le c).
  assert (Nat.ltb MAX_NONSTARTERS (0 + cl_leading c) = false) as -> by (apply Nat.ltb_ge; unfold MAX_NONSTARTERS; lia). eexists _, _; eauto.
Qed.
Lemma cjk_nonstart : forall s, hnon s -> hnon (cjk_compat_variants s).
Proof.
  intros s (c & t & -> & H). unfold cjk_compat_variants. cbn [flat_map]. exists c, (flat_map cjk1 t). split; [|exact H].
  unfold cjk1 at 1. destruct (c <=? 127); [reflexivity|]. destruct (cjk_variant c) as [[b v]|] eqn:E; [|reflexivity].
  apply cjk_key_start in E. congruence.
Qed.
Lemma pipeline_nonstart : forall s, hnon s -> hnon (pipeline s).
Proof.
  intros s (c & t & -> & H). unfold pipeline. apply nfc_nonstart, ss_nonstart, cjk_nonstart. unfold isolate_unassigned. cbn [isolate_go].
  rewrite (nonstart_assigned _ H). cbn [negb andb orb]. eexists _, _; eauto.
Qed.
Theorem pipeline_first : forall s, opt_all is_basic_text_start (head_opt (pipeline s)) = opt_all is_basic_text_start (head_opt s).
Proof.
  intros s. destruct (opt_all is_basic_text_start (head_opt s)) eqn:E; [now apply pipeline_start|].
  destruct s as [|c t]; [discriminate|]. destruct (pipeline_nonstart (c :: t)) as (x & u & -> & HX); [exists c, t; auto|exact HX].
Qed.

(** * Last character *)
Lemma nonend_assigned : forall c, is_basic_text_end c = false -> is_assigned c = true.
Proof.
  intros c E. apply (ranges_all_spec _ _ _ chk_nonend_assigned). rewrite !in_ranges_app. cbn [in_ranges existsb fst snd]. rewrite in_range_single. unfold is_basic_text_end in E.
  fold (in_ranges c tbl_preceding_repha). destruct (c =? ZWJ); [reflexivity|].
  destruct (in_ranges c tbl_preceding_repha), (in_ranges c tbl_consonant_prefixed), (in_ranges c tbl_prepended_concatenation_mark); cbn in *; auto.
Qed.
Theorem pipeline_last_iff : forall s, opt_all is_basic_text_end (last_opt (pipeline s)) = opt_all is_basic_text_end (last_opt s).
Proof.
  intros s. destruct (opt_all is_basic_text_end (last_opt s)) eqn:E.
  - destruct (last_opt (pipeline s)) as [x|] eqn:EL; [|reflexivity]. cbn. destruct (is_basic_text_end x) eqn:EX; [reflexivity|].
    apply last_opt_some in EL. destruct EL as [t EL]. destruct (pipeline_last _ _ _ EL EX) as [a ->]. rewrite last_opt_snoc in E. cbn in E. congruence.
  - destruct (last_opt s) as [x|] eqn:EL; [|discriminate]. cbn in E. apply last_opt_some in EL. destruct EL as [t ->].
    rewrite pipeline_conv. unfold isolate_unassigned. destruct (iso_snoc t false false x (nonend_assigned _ E)) as [y ->].
    rewrite conv_snoc by now apply not_end_boring. rewrite last_opt_snoc. exact E.
Qed.
