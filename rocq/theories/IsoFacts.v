(** Unassigned characters: isolate_unassigned alone and followed by the rest of
    the conversion. *)
From Coq Require Import NArith Arith List Bool Lia ZifyBool ZifyNat ZifyN.
From Verif Require Import Base Ucd Norm Chars TextTables TextUtils UcdFacts NormFacts CharFacts SpecText TextFacts PipelineFacts.
Import ListNotations.
Local Open Scope N_scope.
Arguments N.add : simpl never.
Arguments N.leb : simpl never.
Arguments N.ltb : simpl never.
Arguments N.eqb : simpl never.

(** * NFC and predicates closed under composition *)
Section ForallNfc.
  Variable P : N -> Prop.
  Hypothesis HC : forall k c r, compose k c = Some r -> P k -> P c -> P r.

  Lemma rc_forall : forall s k buf l, Forall P s -> Forall P buf -> P k -> Forall P (rc k buf l s).
  Proof.
    induction s as [|ch t IH]; intros k buf l HS HB HK; cbn [rc]; [now constructor|].
    inversion HS as [|? ? H1 H2]; subst.
    assert (HB' : Forall P (buf ++ [ch])) by (apply Forall_app; auto).
    destruct l as [lc|].
    - destruct (ccc ch <=? lc).
      + destruct (ccc ch =? 0); [|now apply IH]. constructor; [exact HK|]. apply Forall_app. split; [exact HB|]. apply IH; auto.
      + destruct (compose k ch) as [r|] eqn:E; apply IH; auto. exact (HC _ _ _ E HK H1).
    - destruct (compose k ch) as [r|] eqn:E; [apply IH; auto; exact (HC _ _ _ E HK H1)|].
      destruct (ccc ch =? 0); [constructor; auto|]; apply IH; auto.
  Qed.
  Lemma nfc_forall : forall s, Forall P (flat_map cd s) -> Forall P (nfc s).
  Proof.
    intros s H. unfold nfc. assert (G : Forall P (nfd s)).
    { unfold nfd. apply Forall_forall. intros x HX. rewrite in_order in HX. rewrite Forall_forall in H. now apply H. }
    induction G as [|c t Hc HF IH]; cbn [recomp]; [constructor|].
    destruct (ccc c =? 0); [apply rc_forall; auto|constructor; auto].
  Qed.
End ForallNfc.

(** * Conversion keeps assigned text assigned *)
Transparent ccc cd kd compose qc_nfc is_public_assigned cjk_variant.
Lemma chk_canon_assigned : tall (fun (c : N) (d : list N) => forallb is_public_assigned d) trie_canon = true.
Proof. vm_compute. reflexivity. Qed.
Lemma chk_cjk_assigned : tall (fun (c : N) (d : N * N) => is_public_assigned (fst d) && is_public_assigned (snd d)) trie_cjk = true.
Proof. vm_compute. reflexivity. Qed.
Lemma chk_jamo_assigned : ranges_all is_public_assigned [(0x1100, 0x11FF)] = true.
Proof. vm_compute. reflexivity. Qed.
Definition comp_assigned (a b r : N) : bool := is_public_assigned r.
Lemma chk_comp_assigned : tall (fun a l => forallb (fun br => comp_assigned a (fst br) (snd br)) l) trie_comp = true.
Proof. vm_compute. reflexivity. Qed.
Lemma hangul_public : forall c, is_hangul_syllable c = true -> is_public_assigned c = true.
Proof.
  intros c H. unfold is_public_assigned. apply negb_true_iff, not_true_is_false. intro E. apply rmem_rlist in E.
  apply (disjoint_spec _ _ _ disjoint_not_public) in E. unfold is_hangul_syllable, S_BASE, S_COUNT in H.
  cbn [in_ranges existsb fst snd] in E. unfold in_range in *. lia.
Qed.
Lemma jamo_public : forall c, is_jamo c = true -> is_public_assigned c = true.
Proof.
  intros c H. apply (ranges_all_spec _ _ _ chk_jamo_assigned). cbn [in_ranges existsb fst snd].
  unfold is_jamo, in_range, L_BASE, L_COUNT, V_BASE, V_COUNT, T_BASE, T_COUNT in *. lia.
Qed.
Lemma cjk_assigned : forall c x, is_assigned c = true -> In x (cjk1 c) -> is_assigned x = true.
Proof.
  intros c x H HX. unfold cjk1 in HX. destruct (c <=? 127); [destruct HX as [<-|[]]; exact H|].
  unfold cjk_variant in HX. destruct (nfind c trie_cjk) as [[b v]|] eqn:E; [|destruct HX as [<-|[]]; exact H].
  apply (tall_spec _ _ _ _ _ chk_cjk_assigned) in E. cbn in E. apply andb_prop in E. destruct E as [E1 E2].
  unfold is_assigned. destruct HX as [<-|[<-|[]]]; [now rewrite E1|now rewrite E2].
Qed.
Global Opaque ccc cd kd compose qc_nfc is_public_assigned cjk_variant.

Lemma cd_assigned : forall c x, is_assigned c = true -> In x (cd c) -> is_assigned x = true.
Proof.
  intros c x H HX. destruct (cd_cases c) as [E|[[A E]|E]].
  - rewrite E in HX. destruct HX as [<-|[]]. exact H.
  - rewrite E in HX. unfold is_assigned. rewrite (jamo_public x); [reflexivity|]. exact (hangul_jamo _ _ A HX).
  - apply (canon_lift _ chk_canon_assigned) in E. cbn in E. rewrite forallb_forall in E. unfold is_assigned. now rewrite E.
Qed.
Lemma compose_assigned : forall k c r, compose k c = Some r -> is_assigned r = true.
Proof.
  intros k c r H. unfold is_assigned. destruct (compose_inv _ _ _ H) as [(H1 & H2 & ->)|[(H1 & H2 & H3 & ->)|H1]].
  - rewrite hangul_public; [reflexivity|]. apply LV_decompose; assumption.
  - rewrite hangul_public; [reflexivity|]. apply LVT_decompose; assumption.
  - apply (comp_lift comp_assigned chk_comp_assigned) in H1. unfold comp_assigned in H1. now rewrite H1.
Qed.

Notation all_assigned := (Forall (fun c => is_assigned c = true)).
Lemma conv_assigned : forall s, all_assigned s -> all_assigned (conv s).
Proof.
  intros s H. apply nfc_forall; [intros; eapply compose_assigned; eauto|].
  apply Forall_forall. intros z HZ. apply in_flat_map in HZ. destruct HZ as (y & HY & HZ). apply (cd_assigned y); [|exact HZ].
  unfold stream_safe in HY. apply ss_in in HY. destruct HY as [HY| ->]; [|exact assigned_CGJ].
  unfold cjk_compat_variants in HY. apply in_flat_map in HY. destruct HY as (x & HX & HY).
  rewrite Forall_forall in H. eapply cjk_assigned; eauto.
Qed.

(** the first unassigned character *)
Lemma unassigned_split : forall s, all_assigned s \/ exists a u b, s = a ++ u :: b /\ all_assigned a /\ is_assigned u = false.
Proof.
  induction s as [|c s IH]; [left; constructor|]. destruct (is_assigned c) eqn:E.
  - destruct IH as [IH|(a & u & b & -> & HA & HU)]; [left; now constructor|].
    right. exists (c :: a), u, b. repeat split; auto.
  - right. exists [], c, s. repeat split; auto.
Qed.

(** an unassigned character of the output is one of the input, and the rest is
    converted around it *)
Lemma conv_origin_n : forall n t x c y, (length t <= n)%nat -> conv t = x ++ c :: y -> is_assigned c = false ->
  exists a b, t = a ++ c :: b /\ conv a = x /\ conv b = y.
Proof.
  induction n as [|n IH]; intros t x c y Hn E HC.
  - destruct t; [|cbn in Hn; lia]. rewrite conv_nil in E. destruct x; discriminate.
  - destruct (unassigned_split t) as [HA|(a & u & b & -> & HA & HU)].
    + apply conv_assigned in HA. rewrite E in HA. apply Forall_app in HA. destruct HA as [_ HA]. inversion HA. congruence.
    + rewrite conv_split in E by now apply unassigned_boring.
      apply conv_assigned in HA. remember (conv a) as ca eqn:Ea.
      assert (G : (x = ca /\ c = u /\ y = conv b) \/ exists x', x = ca ++ u :: x' /\ conv b = x' ++ c :: y).
      { clear - E HA HC. revert x E. induction HA as [|z ca Hz HA IHA]; intros x E.
        - destruct x as [|w x]; injection E as E1 E2; subst; [left; auto|right; exists x; auto].
        - destruct x as [|w x]; cbn [app] in E; injection E as E1 E2; [congruence|]. subst w.
          destruct (IHA _ E2) as [(-> & -> & ->)|(x' & -> & E')]; [left; auto|right; exists x'; auto]. }
      destruct G as [(-> & -> & ->)|(x' & -> & Eb)].
      * exists a, b. auto.
      * destruct (IH b x' c y) as (a2 & b2 & -> & E1 & E2); [|exact Eb|exact HC|].
        { rewrite app_length in Hn. cbn in Hn. lia. }
        exists (a ++ u :: a2), b2. split; [now rewrite <- app_assoc|]. split; [|exact E2].
        rewrite conv_split by now apply unassigned_boring. now rewrite E1, <- Ea.
Qed.
Lemma conv_origin : forall t x c y, conv t = x ++ c :: y -> is_assigned c = false ->
  exists a b, t = a ++ c :: b /\ conv a = x /\ conv b = y.
Proof. intros t x c y. apply (conv_origin_n (length t)). lia. Qed.

Lemma conv_preceded : forall t, preceded t -> preceded (conv t).
Proof.
  intros t H x c y E HC. destruct (conv_origin _ _ _ _ E HC) as (a & b & -> & <- & <-).
  destruct (H _ _ _ eq_refl HC) as [a' ->]. change 0x34F with CGJ. rewrite conv_snoc by exact boring_CGJ. eauto.
Qed.
Lemma conv_isolated : forall t, isolated t -> isolated (conv t).
Proof.
  intros t H x c y E HC. destruct (conv_origin _ _ _ _ E HC) as (a & b & -> & <- & <-).
  destruct (H _ _ _ eq_refl HC) as [[a' ->] [b' ->]]. change 0x34F with CGJ.
  rewrite conv_snoc, conv_cons by exact boring_CGJ. eauto.
Qed.

(** * isolate_unassigned *)
Theorem iso_preceded : forall s, preceded (isolate_unassigned s).
Proof. intro s. apply prec_ok_spec. exact (iso_prec s false false). Qed.
Theorem pipeline_preceded : forall s, preceded (pipeline s).
Proof. intro s. rewrite pipeline_conv. apply conv_preceded, iso_preceded. Qed.

(** no unassigned character directly after a U+34F; [h]: the previous one is U+34F *)
Fixpoint unguarded (h : bool) (s : list N) : bool :=
  match s with
  | [] => true
  | c :: t => (is_assigned c || negb h) && unguarded (c =? CGJ) t
  end.

Lemma unguarded_spec : forall s h, (h = true -> hd_assigned s) -> (forall a c b, s = a ++ CGJ :: c :: b -> is_assigned c = true) -> unguarded h s = true.
Proof.
  induction s as [|c s IH]; intros h H1 H2; [reflexivity|]. cbn [unguarded]. apply andb_true_intro. split.
  - destruct h; [|now rewrite orb_true_r]. rewrite (H1 eq_refl c s eq_refl). reflexivity.
  - apply IH.
    + intros E x t ->. apply N.eqb_eq in E. subst c. exact (H2 [] x t eq_refl).
    + intros a x b ->. exact (H2 (c :: a) x b eq_refl).
Qed.

(** every unassigned character is followed by U+34F; [need]: the previous character is unassigned *)
Fixpoint foll_ok (need : bool) (s : list N) : bool :=
  match s with
  | [] => negb need
  | c :: t => (negb need || (c =? CGJ)) && foll_ok (negb (is_assigned c)) t
  end.
Lemma foll_ok_split : forall a n c b, foll_ok n (a ++ c :: b) = true -> is_assigned c = false -> exists b', b = CGJ :: b'.
Proof.
  induction a as [|x a IH]; intros n c b H HC; cbn [app foll_ok] in H; apply andb_prop in H; destruct H as [_ H].
  - rewrite HC in H. cbn in H. destruct b as [|y b]; cbn [foll_ok negb orb] in H; [discriminate|].
    apply andb_prop in H. destruct H as [H _]. apply N.eqb_eq in H. subst. eauto.
  - eapply IH; eauto.
Qed.

Lemma iso_foll : forall s n h, (n = true -> h = false) -> unguarded h s = true -> foll_ok n (isolate_go n h s) = true.
Proof.
  induction s as [|c s IH]; intros n h HN H; cbn [isolate_go].
  - destruct n; cbn; [rewrite assigned_CGJ|]; reflexivity.
  - cbn [unguarded] in H. apply andb_prop in H. destruct H as [H1 H2].
    destruct (c =? CGJ) eqn:EC; cbn [negb andb].
    + apply N.eqb_eq in EC. subst c. rewrite assigned_CGJ. rewrite andb_false_r. cbn [negb andb orb foll_ok]. rewrite assigned_CGJ, N.eqb_refl, orb_true_r.
      cbn [andb negb]. apply IH; [discriminate|exact H2].
    + assert (U : unguarded false s = true) by exact H2.
      destruct n; cbn [andb orb].
      * cbn [foll_ok negb orb]. rewrite N.eqb_refl, assigned_CGJ. cbn [andb negb orb].
        apply IH; [reflexivity|exact U].
      * destruct (negb (is_assigned c) && negb h) eqn:E.
        -- cbn [foll_ok negb orb]. rewrite assigned_CGJ. cbn [andb negb orb]. apply IH; [reflexivity|exact U].
        -- cbn [foll_ok negb orb]. assert (A : is_assigned c = true) by lia. rewrite A. cbn. apply IH; [discriminate|exact H2].
Qed.

(** documented behaviour holds if no unassigned character of the input directly follows a U+34F *)
Definition unguarded_text (s : list N) : Prop := forall a c b, s = a ++ 0x34F :: c :: b -> is_assigned c = true.
Theorem iso_isolated : forall s, unguarded_text s -> isolated (isolate_unassigned s).
Proof.
  intros s H a c b E HC. split; [exact (iso_preceded s _ _ _ E HC)|].
  assert (G : foll_ok false (isolate_unassigned s) = true).
  { apply iso_foll; [discriminate|]. apply unguarded_spec; [discriminate|exact H]. }
  rewrite E in G. exact (foll_ok_split _ _ _ _ G HC).
Qed.
Theorem pipeline_isolated : forall s, unguarded_text s -> isolated (pipeline s).
Proof. intros s H. rewrite pipeline_conv. apply conv_isolated, iso_isolated, H. Qed.
Theorem iso_isolated_refuted : exists s, ~ isolated (isolate_unassigned s) /\ ~ isolated (pipeline s).
Proof.
  exists [0x34F; 0x378; 0x61]. split; intro H.
  - destruct (H [0x34F] 0x378 [0x61]) as [_ [b E]]; [vm_compute; reflexivity|vm_compute; reflexivity|discriminate].
  - destruct (H [0x34F] 0x378 [0x61]) as [_ [b E]]; [vm_compute; reflexivity|vm_compute; reflexivity|discriminate].
Qed.

(** * Only U+34F is added *)
Lemma iso_inserts : forall s n h, inserts 0x34F s (isolate_go n h s).
Proof.
  induction s as [|c s IH]; intros n h; cbn [isolate_go].
  - destruct n; repeat constructor.
  - destruct (_ || _); repeat constructor; apply IH.
Qed.
Theorem iso_only_adds : forall s, inserts 0x34F s (isolate_unassigned s).
Proof. intro s. apply iso_inserts. Qed.
