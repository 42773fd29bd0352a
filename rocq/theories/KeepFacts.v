(** Characters that the conversion neither creates nor loses: the C0 controls
    (with line ends, SUB and ESC), U+2060 and the Basic Text non-enders. *)
From Coq Require Import NArith Arith List Bool Lia ZifyBool ZifyNat ZifyN.
From Verif Require Import Base Ucd UcdTables Norm Chars TextTables TextUtils UcdFacts NormFacts CharFacts SpecText TextFacts PipelineFacts IsoFacts.
Import ListNotations.
Local Open Scope N_scope.
Arguments N.add : simpl never.
Arguments N.leb : simpl never.
Arguments N.ltb : simpl never.
Arguments N.eqb : simpl never.

Definition kept_char (c : N) : bool := (c <=? 0x1F) || (c =? 0x2060) || negb (is_basic_text_end c).

Transparent ccc cd kd compose qc_nfc is_public_assigned cjk_variant.
Lemma chk_canon_kept : tall (fun (c : N) (d : list N) => negb (existsb kept_char d)) trie_canon = true.
Proof. vm_compute. reflexivity. Qed.
Lemma chk_cjk_kept : tall (fun (c : N) (d : N * N) => negb (kept_char (fst d) || kept_char (snd d))) trie_cjk = true.
Proof. vm_compute. reflexivity. Qed.
Definition comp_kept (a b r : N) : bool := negb (kept_char r).
Lemma chk_comp_kept : tall (fun a l => forallb (fun br => comp_kept a (fst br) (snd br)) l) trie_comp = true.
Proof. vm_compute. reflexivity. Qed.
Lemma cjk_kept : forall c x, In x (cjk1 c) -> kept_char x = true -> c = x.
Proof.
  intros c x HX HK. unfold cjk1 in HX. destruct (c <=? 127); [destruct HX as [<-|[]]; reflexivity|].
  unfold cjk_variant in HX. destruct (nfind c trie_cjk) as [[b v]|] eqn:E; [|destruct HX as [<-|[]]; reflexivity].
  apply (tall_spec _ _ _ _ _ chk_cjk_kept) in E. cbn [fst snd] in E. apply negb_true_iff, orb_false_iff in E. destruct E as [E1 E2].
  destruct HX as [<-|[<-|[]]]; congruence.
Qed.
Lemma chk_c0_boring : ranges_all boring_b [(0, 0x1F)] = true. Proof. vm_compute. reflexivity. Qed.
Lemma boring_WJ : boring 0x2060. Proof. apply boring_b_spec. vm_compute. reflexivity. Qed.
Lemma chk_end_hangul : ranges_all (fun c => negb (is_jamo c) && negb (in_range c S_BASE (S_BASE + S_COUNT + 64)))
  ([(ZWJ, ZWJ)] ++ tbl_preceding_repha ++ tbl_consonant_prefixed ++ tbl_prepended_concatenation_mark) = true.
Proof. vm_compute. reflexivity. Qed.
Global Opaque ccc cd kd compose qc_nfc is_public_assigned cjk_variant.

Lemma kept_hangul : forall c, kept_char c = true -> is_jamo c = false /\ in_range c S_BASE (S_BASE + S_COUNT + 64) = false.
Proof.
  intros c H. unfold kept_char in H. destruct (is_basic_text_end c) eqn:E.
  - unfold is_jamo, in_range, L_BASE, S_BASE, S_COUNT, L_COUNT, V_BASE, V_COUNT, T_BASE, T_COUNT in *. clear E. lia.
  - assert (in_ranges c ([(ZWJ, ZWJ)] ++ tbl_preceding_repha ++ tbl_consonant_prefixed ++ tbl_prepended_concatenation_mark) = true) as K.
    { rewrite !in_ranges_app. cbn [in_ranges existsb fst snd]. rewrite in_range_single. unfold is_basic_text_end in E.
      fold (in_ranges c tbl_preceding_repha). destruct (c =? ZWJ); [reflexivity|].
      destruct (in_ranges c tbl_preceding_repha), (in_ranges c tbl_consonant_prefixed), (in_ranges c tbl_prepended_concatenation_mark); cbn in *; auto. }
    apply (ranges_all_spec _ _ _ chk_end_hangul) in K. apply andb_prop in K. rewrite !negb_true_iff in K. exact K.
Qed.
Lemma cd_kept : forall c x, In x (cd c) -> kept_char x = true -> c = x.
Proof.
  intros c x HX HK. destruct (cd_cases c) as [E|[[A E]|E]].
  - rewrite E in HX. now destruct HX as [<-|[]].
  - rewrite E in HX. apply (hangul_jamo _ _ A) in HX. destruct (kept_hangul _ HK). congruence.
  - apply (canon_lift _ chk_canon_kept) in E. cbn in E. apply negb_true_iff in E. exfalso.
    assert (existsb kept_char (cd c) = true) by (apply existsb_exists; eauto). congruence.
Qed.
Lemma compose_kept : forall k c r, compose k c = Some r -> kept_char r = false.
Proof.
  intros k c r H. destruct (kept_char r) eqn:E; [|reflexivity].
  destruct (compose_inv _ _ _ H) as [(H1 & H2 & ER)|[(H1 & H2 & H3 & ER)|H1]].
  - pose proof (proj1 (LV_decompose _ _ H1 H2)) as K. rewrite <- ER in K. destruct (kept_hangul _ E) as [_ KH]. clear - K KH. unfold is_hangul_syllable, S_BASE, S_COUNT, in_range in *. lia.
  - destruct (kept_hangul _ E) as [_ KH]. clear - H1 H2 ER KH. unfold in_range, S_BASE, S_COUNT, T_BASE, T_COUNT in *. lia.
  - apply (comp_lift comp_kept chk_comp_kept) in H1. unfold comp_kept in H1. rewrite E in H1. discriminate.
Qed.

Lemma conv_no_kept : forall x s, kept_char x = true -> ~ In x s -> ~ In x (conv s).
Proof.
  intros x s HK H. assert (F : Forall (fun c => c <> x) (conv s)).
  { apply nfc_forall; [intros k c r E _ _ ->; apply compose_kept in E; congruence|].
    apply Forall_forall. intros z HZ ->. apply in_flat_map in HZ. destruct HZ as (y & HY & HZ). apply (fun h => cd_kept _ _ h HK) in HZ. subst y.
    unfold stream_safe in HY. apply ss_in in HY. destruct HY as [HY|E]; [|subst x; vm_compute in HK; discriminate].
    unfold cjk_compat_variants in HY. apply in_flat_map in HY. destruct HY as (w & HW & HY). apply (fun h => cjk_kept _ _ h HK) in HY. now subst w. }
  intro K. rewrite Forall_forall in F. now apply (F x).
Qed.

Notation count := (count_occ N.eq_dec).
Lemma kept_boring : forall x, kept_char x = true -> boring x.
Proof.
  intros x H. unfold kept_char in H. apply orb_prop in H. destruct H as [H|H]; [apply orb_prop in H; destruct H as [H|H]|].
  - apply boring_b_spec. apply (ranges_all_spec _ _ _ chk_c0_boring). unfold in_ranges, in_range. cbn. lia.
  - apply N.eqb_eq in H. subst x. exact boring_WJ.
  - apply not_end_boring. now apply negb_true_iff.
Qed.
Lemma conv_count_n : forall n x s, kept_char x = true -> (length s <= n)%nat -> count (conv s) x = count s x.
Proof.
  induction n as [|n IH]; intros x s HK HL.
  - destruct s; [now rewrite conv_nil|cbn in HL; lia].
  - destruct (in_dec N.eq_dec x s) as [I|I].
    + apply in_split in I. destruct I as (a & b & ->). rewrite conv_split by now apply kept_boring.
      rewrite app_length in HL. cbn [length] in HL. rewrite !count_occ_app. cbn [count_occ]. destruct (N.eq_dec x x) as [_|C]; [|congruence].
      rewrite !IH; auto; lia.
    + pose proof (conv_no_kept _ _ HK I) as J. apply (count_occ_not_In N.eq_dec) in I. apply (count_occ_not_In N.eq_dec) in J. congruence.
Qed.
Lemma iso_count : forall x s n h, x <> CGJ -> count (isolate_go n h s) x = count s x.
Proof.
  intros x s n h HX. revert n h. assert (HC : forall l, count (CGJ :: l) x = count l x) by (intro l; apply count_occ_cons_neq; congruence).
  induction s as [|c t IH]; intros n h; cbn [isolate_go].
  - destruct n; [apply HC|reflexivity].
  - repeat match goal with |- context [if ?b then _ else _] => destruct b end; rewrite ?HC; cbn [count_occ]; destruct (N.eq_dec c x);
      rewrite ?HC, ?IH; reflexivity.
Qed.
Theorem pipeline_count : forall x s, kept_char x = true -> count (pipeline s) x = count s x.
Proof.
  intros x s HK. rewrite pipeline_conv, (conv_count_n _ _ _ HK (le_n _)). apply iso_count. intros ->. vm_compute in HK. discriminate.
Qed.

(** The last character can be a non-ender only if it was one before. *)
Lemma last_split : forall (x : N) s, In x s -> exists a b, s = a ++ x :: b /\ ~ In x b.
Proof.
  induction s as [|c t IH]; intros H; [destruct H|]. destruct (in_dec N.eq_dec x t) as [I|I].
  - destruct (IH I) as (a & b & -> & J). exists (c :: a), b. auto.
  - destruct H as [->|H]; [exists [], t; auto|contradiction].
Qed.
Lemma conv_nonnil : forall s, s <> [] -> conv s <> [].
Proof.
  intros s H. apply nfc_nonnil. destruct s as [|c s]; [congruence|]. unfold cjk_compat_variants; cbn [flat_map].
  assert (exists x t, cjk1 c = x :: t) as (x & t & ->).
  { unfold cjk1. destruct (c <=? 127); [eauto|]. destruct (cjk_variant c) as [[? ?]|]; eauto. }
  cbn [app]. unfold stream_safe. cbn [stream_safe_go]. destruct (Nat.ltb _ _); discriminate.
Qed.
Lemma conv_last : forall s t x, conv s = t ++ [x] -> is_basic_text_end x = false -> exists a, s = a ++ [x].
Proof.
  intros s t x E HX. assert (HK : kept_char x = true) by (unfold kept_char; now rewrite HX, orb_true_r).
  assert (I : In x s).
  { destruct (in_dec N.eq_dec x s) as [I|I]; [exact I|]. exfalso. apply (conv_no_kept _ _ HK I). rewrite E. apply in_or_app. right. now left. }
  destruct (last_split _ _ I) as (a & b & -> & NB). rewrite conv_split in E by now apply kept_boring.
  destruct b as [|y b _] using rev_ind; [now exists a|]. exfalso. apply (conv_no_kept _ _ HK NB).
  pose proof (conv_nonnil (b ++ [y])) as NN. destruct (conv (b ++ [y])) as [|z l _] using rev_ind; [exfalso; apply NN; [destruct b; discriminate|reflexivity]|].
  rewrite app_comm_cons, app_assoc in E. apply app_inj_tail in E. destruct E as [_ ->]. apply in_or_app. right. now left.
Qed.
Lemma iso_last : forall s n h t x, isolate_go n h s = t ++ [x] -> x = CGJ \/ exists a, s = a ++ [x].
Proof.
  induction s as [|c s IH]; intros n h t x H; cbn [isolate_go] in H.
  - destruct n; [|destruct t; discriminate]. left. destruct t as [|? [|? ?]]; cbn in H; congruence.
  - assert (K : forall n h t, c :: isolate_go n h s = t ++ [x] -> x = CGJ \/ exists a, c :: s = a ++ [x]).
    { clear H n h t. intros n h t H. destruct t as [|y t]; cbn in H; injection H as <- H.
      - destruct s as [|d s]; [right; now exists []|]. exfalso. cbn [isolate_go] in H. destruct (_ || _) in H; discriminate.
      - destruct (IH _ _ _ _ H) as [->|[a ->]]; [now left|right; now exists (c :: a)]. }
    destruct (_ || _) in H; [|now apply K in H]. destruct t as [|y t]; [discriminate|]. injection H as <- H. now apply K in H.
Qed.
Theorem pipeline_last : forall s t x, pipeline s = t ++ [x] -> is_basic_text_end x = false -> exists a, s = a ++ [x].
Proof.
  intros s t x H HX. rewrite pipeline_conv in H. apply conv_last in H; [|exact HX]. destruct H as [a H].
  apply iso_last in H. destruct H as [->|H]; [vm_compute in HX; discriminate|exact H].
Qed.
