(** Facts about the Unicode tables.  Each is a finite check over the entries of a
    table, lifted to all characters.  Hangul is handled by arithmetic. *)
From Coq Require Import NArith ZArith List Bool Lia.
From Coq Require Import ZifyBool ZifyNat ZifyN.
From Verif Require Import Base UcdTables Ucd Norm.
Import ListNotations.
Local Open Scope N_scope.
Arguments N.add : simpl never.
Arguments N.sub : simpl never.
Arguments N.mul : simpl never.
Arguments N.div : simpl never.
Arguments N.modulo : simpl never.
Arguments N.leb : simpl never.
Arguments N.ltb : simpl never.
Arguments N.eqb : simpl never.

(** * Lifting *)
Lemma ccc_lift : forall P, tall P trie_ccc = true -> forall c, ccc c <> 0 -> P c (ccc c) = true.
Proof.
  intros P H c Hc. unfold ccc in *. destruct (nfind c trie_ccc) eqn:E; [|lia].
  exact (tall_spec _ P _ _ _ H E).
Qed.

Lemma canon_lift : forall P, tall P trie_canon = true ->
  forall c d, nfind c trie_canon = Some d -> P c d = true.
Proof. intros P H c d E. exact (tall_spec _ P _ _ _ H E). Qed.

Lemma compat_lift : forall P, tall P trie_compat = true ->
  forall c d, nfind c trie_compat = Some d -> P c d = true.
Proof. intros P H c d E. exact (tall_spec _ P _ _ _ H E). Qed.

Lemma qc_lift : forall P, tall P trie_qc = true ->
  forall c d, nfind c trie_qc = Some d -> P c d = true.
Proof. intros P H c d E. exact (tall_spec _ P _ _ _ H E). Qed.

Lemma assoc_in : forall b l r, assoc b l = Some r -> In (b, r) l.
Proof.
  induction l as [|[x y] l IH]; cbn; intros r H; [discriminate|].
  destruct (x =? b) eqn:E.
  - injection H as ->. apply N.eqb_eq in E. subst. now left.
  - right. now apply IH.
Qed.

Lemma comp_lift : forall P : N -> N -> N -> bool,
  tall (fun a l => forallb (fun br => P a (fst br) (snd br)) l) trie_comp = true ->
  forall a b r, compose_table a b = Some r -> P a b r = true.
Proof.
  intros P H a b r E. unfold compose_table in E.
  destruct (nfind a trie_comp) as [l|] eqn:F; [|discriminate].
  pose proof (tall_spec _ _ _ _ _ H F) as Q. cbn in Q.
  rewrite forallb_forall in Q. apply assoc_in in E. exact (Q _ E).
Qed.

(** * Which blocks the tables avoid *)
Definition is_jamo (c : N) : bool := in_range c 0x1100 0x11FF.
Definition plain_key (c : N) : bool := (0x7F <? c) && negb (is_hangul_syllable c) && negb (is_jamo c).

Lemma chk_ccc_plain : tall (fun (c : N) _ => plain_key c) trie_ccc = true.
Proof. vm_compute. reflexivity. Qed.
Lemma chk_canon_plain : tall (fun (c : N) _ => plain_key c) trie_canon = true.
Proof. vm_compute. reflexivity. Qed.
Lemma chk_compat_plain : tall (fun (c : N) _ => ((0x7F <? c) && negb (is_hangul_syllable c) && negb (is_jamo c))) trie_compat = true.
Proof. vm_compute. reflexivity. Qed.
Lemma chk_comp_plain : tall (fun a l => forallb (fun br =>
   negb (is_hangul_syllable a) && negb (is_jamo a) && plain_key (fst br) && plain_key (snd br)) l) trie_comp = true.
Proof. vm_compute. reflexivity. Qed.
Lemma chk_qc_ascii : tall (fun (c : N) _ => (0x7F <? c) && negb (is_hangul_syllable c)) trie_qc = true.
Proof. vm_compute. reflexivity. Qed.

Lemma ccc_not_plain : forall c, plain_key c = false -> ccc c = 0.
Proof.
  intros c H. destruct (N.eq_dec (ccc c) 0) as [|n]; [assumption|].
  pose proof (ccc_lift _ chk_ccc_plain c n). cbn in *. congruence.
Qed.
Lemma canon_not_plain : forall c, plain_key c = false -> nfind c trie_canon = None.
Proof.
  intros c H. destruct (nfind c trie_canon) eqn:E; [|reflexivity].
  pose proof (canon_lift _ chk_canon_plain c _ E). cbn in *. congruence.
Qed.
Lemma compat_not_plain : forall c, plain_key c = false -> nfind c trie_compat = None.
Proof.
  intros c H. destruct (nfind c trie_compat) eqn:E; [|reflexivity].
  pose proof (compat_lift _ chk_compat_plain c _ E). unfold plain_key in *. cbn in *. congruence.
Qed.

Lemma ascii_not_plain : forall c, c <= 0x7F -> plain_key c = false.
Proof. intros c H. unfold plain_key. assert (0x7F <? c = false) as -> by lia. reflexivity. Qed.
Lemma hangul_not_plain : forall c, is_hangul_syllable c = true -> plain_key c = false.
Proof. intros c H. unfold plain_key. rewrite H. cbn. now rewrite andb_false_r. Qed.
Lemma jamo_not_plain : forall c, is_jamo c = true -> plain_key c = false.
Proof. intros c H. unfold plain_key. rewrite H. cbn. now rewrite andb_false_r. Qed.

Lemma ccc_ascii : forall c, c <= 0x7F -> ccc c = 0.
Proof. intros. now apply ccc_not_plain, ascii_not_plain. Qed.
Lemma ccc_hangul : forall c, is_hangul_syllable c = true -> ccc c = 0.
Proof. intros. now apply ccc_not_plain, hangul_not_plain. Qed.
Lemma ccc_jamo : forall c, is_jamo c = true -> ccc c = 0.
Proof. intros. now apply ccc_not_plain, jamo_not_plain. Qed.

Lemma cd_jamo : forall c, is_jamo c = true -> cd c = [c].
Proof.
  intros c H. unfold cd. rewrite (canon_not_plain c) by now apply jamo_not_plain.
  destruct (c <=? 127); [reflexivity|].
  assert (is_hangul_syllable c = false) as ->; [|reflexivity].
  unfold is_jamo, in_range, is_hangul_syllable, S_BASE, S_COUNT in *. lia.
Qed.
Lemma kd_jamo : forall c, is_jamo c = true -> kd c = [c].
Proof.
  intros c H. unfold kd. rewrite (canon_not_plain c), (compat_not_plain c) by now apply jamo_not_plain.
  destruct (c <=? 127); [reflexivity|].
  assert (is_hangul_syllable c = false) as ->; [|reflexivity].
  unfold is_jamo, in_range, is_hangul_syllable, S_BASE, S_COUNT in *. lia.
Qed.
Lemma cd_ascii : forall c, c <= 0x7F -> cd c = [c].
Proof. intros c H. unfold cd. assert (c <=? 127 = true) as -> by lia. reflexivity. Qed.
Lemma kd_ascii : forall c, c <= 0x7F -> kd c = [c].
Proof. intros c H. unfold kd. assert (c <=? 127 = true) as -> by lia. reflexivity. Qed.

(** * Hangul arithmetic *)
Lemma hangul_cd : forall c, is_hangul_syllable c = true -> cd c = decompose_hangul c.
Proof.
  intros c H. unfold cd. rewrite H.
  assert (c <=? 127 = false) as ->; [|reflexivity].
  unfold is_hangul_syllable, S_BASE, S_COUNT in H. lia.
Qed.
Lemma hangul_kd : forall c, is_hangul_syllable c = true -> kd c = decompose_hangul c.
Proof.
  intros c H. unfold kd. rewrite H.
  assert (c <=? 127 = false) as ->; [|reflexivity].
  unfold is_hangul_syllable, S_BASE, S_COUNT in H. lia.
Qed.

Lemma hangul_bounds : forall c, is_hangul_syllable c = true ->
  let i := c - S_BASE in
  i / N_COUNT < L_COUNT /\ (i mod N_COUNT) / T_COUNT < V_COUNT /\ i mod T_COUNT < T_COUNT.
Proof.
  intros c H i. subst i. unfold is_hangul_syllable, S_BASE, S_COUNT, N_COUNT, L_COUNT, V_COUNT, T_COUNT in *.
  repeat split.
  - apply N.div_lt_upper_bound; lia.
  - apply N.div_lt_upper_bound; [lia|].
    assert ((c - 44032) mod 588 < 588) by (apply N.mod_lt; lia). lia.
  - apply N.mod_lt. lia.
Qed.

Lemma hangul_jamo : forall c x, is_hangul_syllable c = true -> In x (decompose_hangul c) -> is_jamo x = true.
Proof.
  intros c x H HI. pose proof (hangul_bounds c H) as (H1 & H2 & H3). cbn zeta in *.
  unfold decompose_hangul in HI. cbn zeta in HI.
  set (a := (c - S_BASE) / N_COUNT) in *. set (b := (c - S_BASE) mod N_COUNT / T_COUNT) in *.
  set (t := (c - S_BASE) mod T_COUNT) in *. clearbody a b t.
  unfold L_COUNT, V_COUNT, T_COUNT, L_BASE, V_BASE, T_BASE, is_jamo, in_range in *.
  destruct (t =? 0); cbn in HI; intuition (subst; lia).
Qed.

(** The syllable is rebuilt from its jamos. *)
Lemma hangul_recompose : forall c, is_hangul_syllable c = true ->
  exists l v, in_range l L_BASE (L_BASE + L_COUNT - 1) = true /\ in_range v V_BASE (V_BASE + V_COUNT - 1) = true /\
  ((decompose_hangul c = [l; v] /\ compose l v = Some c) \/
   exists lv t, decompose_hangul c = [l; v; t] /\ compose l v = Some lv /\ compose lv t = Some c).
Proof.
  intros c H. pose proof (hangul_bounds c H) as (H1 & H2 & H3). cbn zeta in *.
  set (i := c - S_BASE) in *.
  assert (Hc : c = S_BASE + i) by (unfold is_hangul_syllable, S_BASE in *; subst i; unfold S_BASE; lia).
  assert (D1 : i = N_COUNT * (i / N_COUNT) + i mod N_COUNT) by (apply N.div_mod; discriminate).
  assert (D2 : i mod N_COUNT = T_COUNT * ((i mod N_COUNT) / T_COUNT) + (i mod N_COUNT) mod T_COUNT) by (apply N.div_mod; discriminate).
  assert (D3 : (i mod N_COUNT) mod T_COUNT = i mod T_COUNT).
  { rewrite D1 at 2. change N_COUNT with (21 * T_COUNT).
    replace (21 * T_COUNT * (i / (21 * T_COUNT)) + i mod (21 * T_COUNT))
      with (i mod (21 * T_COUNT) + (21 * (i / (21 * T_COUNT))) * T_COUNT) by lia.
    rewrite N.mod_add by discriminate. reflexivity. }
  unfold decompose_hangul. cbn zeta. fold i.
  set (a := i / N_COUNT) in *. set (b := (i mod N_COUNT) / T_COUNT) in *. set (t := i mod T_COUNT) in *.
  rewrite D3 in D2. clearbody a b t. 
  exists (L_BASE + a), (V_BASE + b).
  assert (R1 : in_range (L_BASE + a) L_BASE (L_BASE + L_COUNT - 1) = true)
    by (unfold in_range, L_BASE, L_COUNT in *; lia).
  assert (R2 : in_range (V_BASE + b) V_BASE (V_BASE + V_COUNT - 1) = true)
    by (unfold in_range, V_BASE, V_COUNT in *; lia).
  split; [exact R1|]. split; [exact R2|].
  assert (CLV : compose (L_BASE + a) (V_BASE + b) = Some (S_BASE + a * N_COUNT + b * T_COUNT)).
  { unfold compose, compose_hangul. rewrite R1, R2. cbn [andb].
    f_equal. unfold L_BASE, V_BASE, N_COUNT, T_COUNT in *. lia. }
  destruct (t =? 0) eqn:Et.
  - left. split; [reflexivity|]. rewrite CLV. f_equal.
    unfold N_COUNT, T_COUNT in *. lia.
  - right. exists (S_BASE + a * N_COUNT + b * T_COUNT), (T_BASE + t).
    split; [reflexivity|]. split; [exact CLV|].
    unfold compose, compose_hangul.
    assert (in_range (S_BASE + a * N_COUNT + b * T_COUNT) L_BASE (L_BASE + L_COUNT - 1) = false) as ->
      by (unfold in_range, S_BASE, L_BASE, L_COUNT; lia).
    cbn [andb].
    assert (in_range (S_BASE + a * N_COUNT + b * T_COUNT) S_BASE (S_BASE + S_COUNT - 1) = true) as ->.
    { unfold in_range, S_BASE, S_COUNT, N_COUNT, T_COUNT, L_COUNT, V_COUNT in *. lia. }
    assert (in_range (T_BASE + t) (T_BASE + 1) (T_BASE + T_COUNT - 1) = true) as ->.
    { unfold in_range, T_BASE, T_COUNT in *. lia. }
    cbn [andb].
    assert ((S_BASE + a * N_COUNT + b * T_COUNT - S_BASE) mod T_COUNT =? 0 = true) as ->.
    { apply N.eqb_eq. replace (S_BASE + a * N_COUNT + b * T_COUNT - S_BASE) with ((a * 21 + b) * T_COUNT)
        by (unfold S_BASE, N_COUNT, T_COUNT; lia). apply N.mod_mul. discriminate. }
    cbn [andb]. f_equal. unfold S_BASE, N_COUNT, T_COUNT, T_BASE in *. lia.
Qed.

(** Inversion of composition. *)
Lemma compose_inv : forall k c r, compose k c = Some r ->
  (in_range k L_BASE (L_BASE + L_COUNT - 1) = true /\ in_range c V_BASE (V_BASE + V_COUNT - 1) = true
     /\ r = S_BASE + (k - L_BASE) * N_COUNT + (c - V_BASE) * T_COUNT)
  \/ (in_range k S_BASE (S_BASE + S_COUNT - 1) = true /\ in_range c (T_BASE + 1) (T_BASE + T_COUNT - 1) = true
     /\ (k - S_BASE) mod T_COUNT = 0 /\ r = k + (c - T_BASE))
  \/ compose_table k c = Some r.
Proof.
  intros k c r H. unfold compose in H. destruct (compose_hangul k c) eqn:E; [|auto].
  injection H as <-. unfold compose_hangul in E.
  destruct (in_range k L_BASE (L_BASE + L_COUNT - 1) && in_range c V_BASE (V_BASE + V_COUNT - 1)) eqn:E1.
  - left. apply andb_prop in E1. destruct E1. injection E as <-. auto.
  - destruct (in_range k S_BASE (S_BASE + S_COUNT - 1) && in_range c (T_BASE + 1) (T_BASE + T_COUNT - 1) && ((k - S_BASE) mod T_COUNT =? 0)) eqn:E2; [|discriminate].
    right. left. apply andb_prop in E2. destruct E2 as [E2 E3]. apply andb_prop in E2. destruct E2.
    injection E as <-. apply N.eqb_eq in E3. auto.
Qed.

Lemma LV_decompose : forall l v, in_range l L_BASE (L_BASE + L_COUNT - 1) = true ->
  in_range v V_BASE (V_BASE + V_COUNT - 1) = true ->
  let r := S_BASE + (l - L_BASE) * N_COUNT + (v - V_BASE) * T_COUNT in
  is_hangul_syllable r = true /\ decompose_hangul r = [l; v].
Proof.
  intros l v Hl Hv r. subst r.
  unfold in_range, L_BASE, L_COUNT, V_BASE, V_COUNT in *.
  set (a := l - 0x1100). set (b := v - 0x1161).
  assert (Ha : a < 19) by (subst a; lia). assert (Hb : b < 21) by (subst b; lia).
  split.
  - unfold is_hangul_syllable, S_BASE, S_COUNT, N_COUNT, T_COUNT. lia.
  - unfold decompose_hangul. cbn zeta.
    replace (S_BASE + a * N_COUNT + b * T_COUNT - S_BASE) with (b * T_COUNT + a * N_COUNT) by (unfold S_BASE; lia).
    assert (E1 : (b * T_COUNT + a * N_COUNT) / N_COUNT = a).
    { rewrite N.div_add by discriminate. rewrite N.div_small; [lia|]. unfold T_COUNT, N_COUNT. lia. }
    assert (E2 : (b * T_COUNT + a * N_COUNT) mod N_COUNT = b * T_COUNT).
    { rewrite N.mod_add by discriminate. apply N.mod_small. unfold T_COUNT, N_COUNT. lia. }
    assert (E3 : (b * T_COUNT + a * N_COUNT) mod T_COUNT = 0).
    { replace (b * T_COUNT + a * N_COUNT) with ((b + a * 21) * T_COUNT) by (unfold T_COUNT, N_COUNT; lia).
      apply N.mod_mul. discriminate. }
    rewrite E1, E2, E3. rewrite N.div_mul by discriminate.
    change (0 =? 0) with true. cbn [N.eqb].
    unfold L_BASE, V_BASE. subst a b. f_equal; [lia|]. f_equal. lia.
Qed.

Lemma LVT_decompose : forall k t, in_range k S_BASE (S_BASE + S_COUNT - 1) = true ->
  (k - S_BASE) mod T_COUNT = 0 -> in_range t (T_BASE + 1) (T_BASE + T_COUNT - 1) = true ->
  is_hangul_syllable k = true /\ is_hangul_syllable (k + (t - T_BASE)) = true /\
  decompose_hangul (k + (t - T_BASE)) = decompose_hangul k ++ [t].
Proof.
  intros k t Hk Hm Ht.
  assert (Hb : t - T_BASE < T_COUNT /\ t - T_BASE <> 0 /\ t = T_BASE + (t - T_BASE)) by (unfold in_range, T_BASE, T_COUNT in *; lia).
  set (b := t - T_BASE) in *.
  assert (Hkk : k = S_BASE + (k - S_BASE)) by (unfold in_range, S_BASE in *; lia).
  assert (Hks : k - S_BASE < S_COUNT) by (unfold in_range, S_BASE, S_COUNT in *; lia).
  set (i := k - S_BASE) in *.
  assert (D : i = T_COUNT * (i / T_COUNT) + 0) by (rewrite <- Hm; apply N.div_mod; discriminate).
  set (q := i / T_COUNT) in *.
  assert (Hq : q < 399) by (unfold T_COUNT, S_COUNT in *; lia).
  assert (HS1 : is_hangul_syllable k = true) by (unfold is_hangul_syllable, S_BASE, S_COUNT in *; lia).
  split; [exact HS1|]. split.
  { unfold is_hangul_syllable, S_BASE, S_COUNT, T_COUNT in *. lia. }
  unfold decompose_hangul. cbn zeta. fold i. rewrite Hm. cbn [N.eqb].
  change (0 =? 0) with true. cbn iota.
  replace (k + b - S_BASE) with (b + i) by lia.
  assert (E3 : (b + i) mod T_COUNT = b).
  { rewrite D. replace (b + (T_COUNT * q + 0)) with (b + q * T_COUNT) by lia.
    rewrite N.mod_add by discriminate. apply N.mod_small. lia. }
  rewrite E3. assert (b =? 0 = false) as -> by lia.
  assert (Dq : q = 21 * (q / 21) + q mod 21) by (apply N.div_mod; discriminate).
  assert (Hr : q mod 21 < 21) by (apply N.mod_lt; discriminate).
  set (u := q / 21) in *. set (w := q mod 21) in *.
  assert (Hi : i = (w * T_COUNT) + u * N_COUNT) by (unfold T_COUNT, N_COUNT in *; lia).
  assert (E1 : (b + i) / N_COUNT = i / N_COUNT).
  { rewrite Hi. replace (b + (w * T_COUNT + u * N_COUNT)) with (b + w * T_COUNT + u * N_COUNT) by lia.
    rewrite !N.div_add by discriminate. rewrite !N.div_small; [reflexivity| |]; unfold T_COUNT, N_COUNT in *; lia. }
  assert (E2 : (b + i) mod N_COUNT = b + w * T_COUNT).
  { rewrite Hi. replace (b + (w * T_COUNT + u * N_COUNT)) with (b + w * T_COUNT + u * N_COUNT) by lia.
    rewrite !N.mod_add by discriminate. apply N.mod_small. unfold T_COUNT, N_COUNT in *; lia. }
  assert (E4 : i mod N_COUNT = w * T_COUNT).
  { rewrite Hi. rewrite !N.mod_add by discriminate. apply N.mod_small. unfold T_COUNT, N_COUNT in *; lia. }
  rewrite E1, E2, E4, N.div_add, N.div_mul by discriminate.
  rewrite (N.div_small b) by lia.
  cbn [app]. rewrite N.add_0_l. rewrite <- (proj2 (proj2 Hb)). reflexivity.
Qed.

(** * Decomposition *)
Lemma chk_canon_full : tall (fun (c : N) (d : list N) => match d with [] => false | _ => true end && forallb (fun x => list_eqb (cd x) [x]) d
   && negb (list_eqb d [c])) trie_canon = true.
Proof. vm_compute. reflexivity. Qed.

Lemma cd_cases : forall c,
  (cd c = [c]) \/ (is_hangul_syllable c = true /\ cd c = decompose_hangul c) \/
  (nfind c trie_canon = Some (cd c)).
Proof.
  intro c. destruct (is_hangul_syllable c) eqn:H.
  - right. left. split; [reflexivity|]. now apply hangul_cd.
  - unfold cd. destruct (c <=? 127); [auto|]. rewrite H.
    destruct (nfind c trie_canon); auto.
Qed.

Lemma cd_nonnil : forall c, cd c <> [].
Proof.
  intro c. destruct (cd_cases c) as [->|[[H ->]|H]].
  - discriminate.
  - unfold decompose_hangul. cbn zeta. destruct (_ =? 0); discriminate.
  - apply (canon_lift _ chk_canon_full) in H. cbn in H. destruct (cd c); [discriminate|discriminate].
Qed.

Lemma cd_full : forall c x, In x (cd c) -> cd x = [x].
Proof.
  intros c x HI. destruct (cd_cases c) as [H|[[H H2]|H]].
  - rewrite H in HI. destruct HI as [<-|[]]. exact H.
  - rewrite H2 in HI. apply cd_jamo. exact (hangul_jamo _ _ H HI).
  - apply (canon_lift _ chk_canon_full) in H. cbn in H.
    apply andb_prop in H. destruct H as [H _]. apply andb_prop in H. destruct H as [_ H].
    rewrite forallb_forall in H. apply H in HI. now apply list_eqb_eq in HI.
Qed.

(** * Composition *)
Definition comp_cd_ok (a b r : N) : bool := list_eqb (cd r) (cd a ++ cd b).
Lemma chk_comp_cd : tall (fun a l => forallb (fun br => comp_cd_ok a (fst br) (snd br)) l) trie_comp = true.
Proof. vm_compute. reflexivity. Qed.

Definition comp_res_ok (a b r : N) : bool :=
  (ccc r =? 0) && (ccc a =? 0) && match qc_nfc r with No => false | _ => true end
  && match qc_nfc b with Maybe => true | _ => false end.
Lemma chk_comp_res : tall (fun a l => forallb (fun br => comp_res_ok a (fst br) (snd br)) l) trie_comp = true.
Proof. vm_compute. reflexivity. Qed.

Lemma compose_cd : forall k c r, compose k c = Some r -> cd r = cd k ++ cd c.
Proof.
  intros k c r H. destruct (compose_inv _ _ _ H) as [(H1 & H2 & ->)|[(H1 & H2 & H3 & ->)|H1]].
  - destruct (LV_decompose k c H1 H2) as [A B]. rewrite hangul_cd by exact A. rewrite B.
    rewrite (cd_jamo k), (cd_jamo c); [reflexivity| |];
      unfold in_range, is_jamo, L_BASE, L_COUNT, V_BASE, V_COUNT in *; unfold in_range; lia.
  - destruct (LVT_decompose k c H1 H3 H2) as (A & B & D). rewrite !hangul_cd by assumption. rewrite D.
    rewrite (cd_jamo c); [reflexivity|].
    unfold in_range, is_jamo, T_BASE, T_COUNT in *; unfold in_range; lia.
  - apply (comp_lift comp_cd_ok chk_comp_cd) in H1. unfold comp_cd_ok in H1. now apply list_eqb_eq in H1.
Qed.

Lemma chk_jamo_qc : forallb (fun c => match qc_nfc c with Maybe => true | _ => false end)
   (map (fun i => 0x1161 + N.of_nat i) (seq 0 21) ++ map (fun i => 0x11A8 + N.of_nat i) (seq 0 27)) = true.
Proof. vm_compute. reflexivity. Qed.

Lemma qc_jamo_V : forall c, in_range c V_BASE (V_BASE + V_COUNT - 1) = true -> qc_nfc c = Maybe.
Proof.
  intros c H. pose proof chk_jamo_qc as F. rewrite forallb_forall in F.
  specialize (F c). destruct (qc_nfc c); try reflexivity;
    (assert (false = true) by (apply F; apply in_or_app; left; apply in_map_iff;
      exists (N.to_nat (c - 0x1161)); unfold in_range, V_BASE, V_COUNT in H; split; [lia|apply in_seq; lia]); discriminate).
Qed.
Lemma qc_jamo_T : forall c, in_range c (T_BASE + 1) (T_BASE + T_COUNT - 1) = true -> qc_nfc c = Maybe.
Proof.
  intros c H. pose proof chk_jamo_qc as F. rewrite forallb_forall in F.
  specialize (F c). destruct (qc_nfc c); try reflexivity;
    (assert (false = true) by (apply F; apply in_or_app; right; apply in_map_iff;
      exists (N.to_nat (c - 0x11A8)); unfold in_range, T_BASE, T_COUNT in H; split; [lia|apply in_seq; lia]); discriminate).
Qed.

Lemma qc_not_key : forall c, (0x7F <? c) && negb (is_hangul_syllable c) = false -> qc_nfc c = Yes.
Proof.
  intros c H. unfold qc_nfc. destruct (nfind c trie_qc) eqn:E; [|reflexivity].
  apply (qc_lift _ chk_qc_ascii) in E. cbn in E. congruence.
Qed.
Lemma qc_ascii : forall c, c <= 0x7F -> qc_nfc c = Yes.
Proof. intros c H. apply qc_not_key. assert (0x7F <? c = false) as -> by lia. reflexivity. Qed.
Lemma qc_hangul : forall c, is_hangul_syllable c = true -> qc_nfc c = Yes.
Proof. intros c H. apply qc_not_key. rewrite H. cbn. apply andb_false_r. Qed.

Lemma compose_facts : forall k c r, compose k c = Some r ->
  ccc r = 0 /\ ccc k = 0 /\ qc_nfc r <> No /\ qc_nfc c = Maybe.
Proof.
  intros k c r H. destruct (compose_inv _ _ _ H) as [(H1 & H2 & ->)|[(H1 & H2 & H3 & ->)|H1]].
  - destruct (LV_decompose k c H1 H2) as [A B]. repeat split.
    + now apply ccc_hangul.
    + apply ccc_jamo. unfold in_range, is_jamo, L_BASE, L_COUNT in *; unfold in_range; lia.
    + rewrite qc_hangul by exact A. discriminate.
    + now apply qc_jamo_V.
  - destruct (LVT_decompose k c H1 H3 H2) as (A & B & D). repeat split.
    + now apply ccc_hangul.
    + now apply ccc_hangul.
    + rewrite qc_hangul by exact B. discriminate.
    + now apply qc_jamo_T.
  - apply (comp_lift comp_res_ok chk_comp_res) in H1. unfold comp_res_ok in H1.
    apply andb_prop in H1; destruct H1 as [H1 H2]. apply andb_prop in H1; destruct H1 as [H1 H3].
    apply andb_prop in H1; destruct H1 as [H1 H4].
    repeat split; try lia; destruct (qc_nfc r), (qc_nfc c); congruence.
Qed.

Lemma compose_second : forall k c, qc_nfc c <> Maybe -> compose k c = None.
Proof.
  intros k c H. destruct (compose k c) eqn:E; [|reflexivity].
  apply compose_facts in E. tauto.
Qed.

(** * Quick check *)
Lemma chk_qc_no : tall (fun (c : N) (n : bool) => if n then match nfind c trie_canon with Some _ => true | None => false end else true) trie_qc = true.
Proof. vm_compute. reflexivity. Qed.

Lemma qc_no_decomposes : forall c, qc_nfc c = No -> cd c <> [c].
Proof.
  intros c H. unfold qc_nfc in H. destruct (nfind c trie_qc) as [[|]|] eqn:E; try discriminate.
  pose proof (qc_lift _ chk_qc_ascii _ _ E) as P. cbn in P.
  apply (qc_lift _ chk_qc_no) in E. cbn in E.
  destruct (nfind c trie_canon) as [d|] eqn:F; [|discriminate].
  pose proof (canon_lift _ chk_canon_full _ _ F) as Q. cbn in Q.
  unfold cd. apply andb_prop in P. destruct P as [P1 P2].
  assert (c <=? 127 = false) as -> by lia. destruct (is_hangul_syllable c); [discriminate|].
  rewrite F. intros ->. rewrite list_eqb_refl in Q. rewrite andb_false_r in Q. discriminate.
Qed.

Lemma chk_ccc_qc : tall (fun (c : N) _ => match qc_nfc c with No => true | _ => list_eqb (cd c) [c] end) trie_ccc = true.
Proof. vm_compute. reflexivity. Qed.

Lemma nonstarter_cd : forall c, ccc c <> 0 -> qc_nfc c <> No -> cd c = [c].
Proof.
  intros c H Q. apply (ccc_lift _ chk_ccc_qc) in H. cbn in H.
  destruct (qc_nfc c); [|congruence|]; now apply list_eqb_eq in H.
Qed.

(** Stepwise recomposition. *)
Fixpoint chain (k : N) (ms : list N) : option N :=
  match ms with
  | [] => Some k
  | m :: t => match compose k m with Some r => chain r t | None => None end
  end.

Fixpoint split_starters (l : list N) : list N * list N :=
  match l with
  | [] => ([], [])
  | x :: t => if ccc x =? 0 then let '(a, b) := split_starters t in (x :: a, b) else ([], l)
  end.

Fixpoint sorted_ns (l : list N) : bool :=
  match l with
  | [] => true
  | x :: t => negb (ccc x =? 0) && (match t with [] => true | y :: _ => ccc x <=? ccc y end) && sorted_ns t
  end.

Definition chain_ok (c : N) (d : list N) : bool :=
  match d with
  | [] => false
  | d0 :: ms =>
      (ccc d0 =? 0) && sorted_ns (snd (split_starters ms))
      && match chain d0 ms with Some r => r =? c | None => false end
      && match qc_nfc c with Yes => match qc_nfc d0 with Yes => true | _ => false end | _ => true end
  end.

Lemma chk_chain : tall (fun (c : N) (d : list N) => if ccc c =? 0 then match qc_nfc c with No => true | _ => chain_ok c d end else true) trie_canon = true.
Proof. vm_compute. reflexivity. Qed.

Lemma split_starters_app : forall l, l = fst (split_starters l) ++ snd (split_starters l).
Proof.
  induction l as [|x t IH]; cbn; [reflexivity|].
  destruct (ccc x =? 0); [|reflexivity]. destruct (split_starters t) as [a b]. cbn in *. congruence.
Qed.
Lemma split_starters_fst : forall l, Forall (fun x => ccc x = 0) (fst (split_starters l)).
Proof.
  induction l as [|x t IH]; cbn; [constructor|].
  destruct (ccc x =? 0) eqn:E; [|constructor]. destruct (split_starters t) as [a b]. cbn in *.
  constructor; [lia|exact IH].
Qed.

(** Every starter that is not QC=No is rebuilt stepwise from its decomposition:
    a starter, then starters, then sorted non-starters. *)
Lemma starter_chain : forall c, ccc c = 0 -> qc_nfc c <> No ->
  exists d0 st ns, cd c = d0 :: st ++ ns /\ ccc d0 = 0 /\ Forall (fun x => ccc x = 0) st /\
    sorted_ns ns = true /\ chain d0 (st ++ ns) = Some c /\ (qc_nfc c = Yes -> qc_nfc d0 = Yes).
Proof.
  intros c H Q. destruct (cd_cases c) as [E|[[A E]|E]].
  - exists c, [], []. rewrite E. cbn. repeat split; auto.
  - rewrite E. destruct (hangul_recompose c A) as (l & v & Hl & Hv & [[D C]|(lv & t & D & C1 & C2)]).
    + exists l, [v], []. rewrite D. cbn. rewrite C. repeat split; auto.
      * apply ccc_jamo. unfold in_range, is_jamo, L_BASE, L_COUNT in *; unfold in_range; lia.
      * constructor; [|constructor]. apply ccc_jamo. unfold in_range, is_jamo, V_BASE, V_COUNT in *; unfold in_range; lia.
      * intros _. clear -Hl. 
        assert (F : forallb (fun c => match qc_nfc c with Yes => true | _ => false end)
             (map (fun i => 0x1100 + N.of_nat i) (seq 0 19)) = true) by (vm_compute; reflexivity).
        rewrite forallb_forall in F. specialize (F l).
        destruct (qc_nfc l); try reflexivity;
         (assert (false = true) by (apply F; apply in_map_iff; exists (N.to_nat (l - 0x1100));
           unfold in_range, L_BASE, L_COUNT in *; split; [lia|apply in_seq; lia]); discriminate).
    + exists l, [v; t], []. rewrite D. cbn. rewrite C1, C2. repeat split; auto.
      * apply ccc_jamo. unfold in_range, is_jamo, L_BASE, L_COUNT in *; unfold in_range; lia.
      * assert (J : forall x, In x (decompose_hangul c) -> ccc x = 0) by (intros x HI; apply ccc_jamo; exact (hangul_jamo _ _ A HI)).
        rewrite D in J. repeat constructor; apply J; cbn; auto.
      * intros _. clear -Hl. 
        assert (F : forallb (fun c => match qc_nfc c with Yes => true | _ => false end)
             (map (fun i => 0x1100 + N.of_nat i) (seq 0 19)) = true) by (vm_compute; reflexivity).
        rewrite forallb_forall in F. specialize (F l).
        destruct (qc_nfc l); try reflexivity;
         (assert (false = true) by (apply F; apply in_map_iff; exists (N.to_nat (l - 0x1100));
           unfold in_range, L_BASE, L_COUNT in *; split; [lia|apply in_seq; lia]); discriminate).
  - apply (canon_lift _ chk_chain) in E. cbn beta in E.
    assert (ccc c =? 0 = true) as EE by lia. rewrite EE in E.
    assert (E' : chain_ok c (cd c) = true) by (destruct (qc_nfc c); congruence). clear E.
    unfold chain_ok in E'. destruct (cd c) as [|d0 ms] eqn:F; [discriminate|].
    repeat (apply andb_prop in E'; destruct E' as [E' ?]).
    exists d0, (fst (split_starters ms)), (snd (split_starters ms)).
    rewrite <- split_starters_app. repeat split; auto; try lia.
    + apply split_starters_fst.
    + destruct (chain d0 ms); [|discriminate]. f_equal. lia.
    + intros HY. rewrite HY in *. destruct (qc_nfc d0); congruence.
Qed.

(** * Stream-Safe classification *)
Definition pat (c : N) : list bool := map nonstarter (kd c).

Lemma chk_compat_kd : tall (fun (c : N) (d : list N) => match d with [] => false | _ => true end && Nat.leb (length d) 30) trie_compat = true.
Proof. vm_compute. reflexivity. Qed.
Lemma chk_canon_len : tall (fun (c : N) (d : list N) => Nat.leb (length d) 30) trie_canon = true.
Proof. vm_compute. reflexivity. Qed.

Lemma kd_cases : forall c,
  (kd c = [c]) \/ (is_hangul_syllable c = true /\ kd c = decompose_hangul c) \/
  (nfind c trie_canon = Some (kd c)) \/ (nfind c trie_compat = Some (kd c)).
Proof.
  intro c. destruct (is_hangul_syllable c) eqn:H.
  - right. left. split; [reflexivity|]. now apply hangul_kd.
  - unfold kd. destruct (c <=? 127); [auto|]. rewrite H.
    destruct (nfind c trie_compat); [auto|]. destruct (nfind c trie_canon); auto.
Qed.

Lemma kd_len : forall c, (1 <= length (kd c) <= 30)%nat.
Proof.
  intro c. destruct (kd_cases c) as [->|[[H ->]|[H|H]]].
  - cbn. lia.
  - unfold decompose_hangul. cbn zeta. destruct (_ =? 0); cbn; lia.
  - pose proof (canon_lift _ chk_canon_len _ _ H) as L. cbn in L.
    apply (canon_lift _ chk_canon_full) in H. cbn in H. destruct (kd c); [discriminate|]. cbn [length] in *. lia.
  - apply (compat_lift _ chk_compat_kd) in H. cbn in H. destruct (kd c); [discriminate|]. cbn [length] in *. lia.
Qed.

Lemma leading_len : forall l, (leading l <= length l)%nat.
Proof. induction l; cbn; [lia|]. destruct (nonstarter a); lia. Qed.

Lemma leading_starters : forall l, (forall x, In x l -> ccc x = 0) -> leading l = 0%nat.
Proof. intros [|x l] H; [reflexivity|]. cbn. unfold nonstarter. rewrite H by (now left). reflexivity. Qed.

Lemma kd_shortcut : forall c x, (c <=? 0x7F) || is_hangul_syllable c = true -> In x (kd c) -> ccc x = 0.
Proof.
  intros c x H HI. destruct (c <=? 0x7F) eqn:E.
  - rewrite kd_ascii in HI by lia. destruct HI as [<-|[]]. apply ccc_ascii. lia.
  - cbn in H. rewrite hangul_kd in HI by exact H. apply ccc_jamo. exact (hangul_jamo _ _ H HI).
Qed.

Lemma cl_leading_eq : forall c, cl_leading c = leading (kd c).
Proof.
  intro c. unfold cl_leading. destruct ((c <=? 0x7F) || is_hangul_syllable c) eqn:E; [|reflexivity].
  symmetry. apply leading_starters. intros x. now apply kd_shortcut.
Qed.
Lemma cl_trailing_eq : forall c, cl_trailing c = leading (rev (kd c)).
Proof.
  intro c. unfold cl_trailing. destruct ((c <=? 0x7F) || is_hangul_syllable c) eqn:E; [|reflexivity].
  symmetry. apply leading_starters. intros x HI. rewrite <- in_rev in HI. revert HI. now apply kd_shortcut.
Qed.

Lemma cl_leading_le : forall c, (cl_leading c <= 30)%nat.
Proof. intro c. rewrite cl_leading_eq. pose proof (leading_len (kd c)). pose proof (kd_len c). lia. Qed.

Fixpoint list_eqb_b (a b : list bool) : bool :=
  match a, b with [], [] => true | x :: a', y :: b' => Bool.eqb x y && list_eqb_b a' b' | _, _ => false end.
Lemma list_eqb_b_eq : forall a b, list_eqb_b a b = true -> a = b.
Proof.
  induction a as [|x a IH]; destruct b as [|y b]; cbn; intro H; try discriminate; [reflexivity|].
  apply andb_prop in H. destruct H as [H1 H2]. apply Bool.eqb_prop in H1. subst. f_equal. now apply IH.
Qed.

Lemma chk_canon_pat : tall (fun (c : N) (d : list N) => list_eqb_b (pat c) (flat_map pat d)) trie_canon = true.
Proof. vm_compute. reflexivity. Qed.

Lemma pat_cd : forall c, pat c = flat_map pat (cd c).
Proof.
  intro c. destruct (cd_cases c) as [->|[[H ->]|H]].
  - cbn. now rewrite app_nil_r.
  - unfold pat at 1. rewrite hangul_kd by exact H.
    assert (G : forall x, In x (decompose_hangul c) -> kd x = [x]) by (intros; apply kd_jamo; exact (hangul_jamo _ _ H H0)).
    induction (decompose_hangul c) as [|x l IH]; [reflexivity|].
    cbn. rewrite IH by (intros; apply G; now right). unfold pat. rewrite (G x) by now left. reflexivity.
  - apply (canon_lift _ chk_canon_pat) in H. now apply list_eqb_b_eq in H.
Qed.

Lemma chk_ccc_pat : tall (fun (c : N) _ => forallb (fun b => b) (pat c)) trie_ccc = true.
Proof. vm_compute. reflexivity. Qed.

Lemma pat_nonstarter : forall c b, ccc c <> 0 -> In b (pat c) -> b = true.
Proof.
  intros c b H HI. apply (ccc_lift _ chk_ccc_pat) in H. cbn in H. rewrite forallb_forall in H. now apply H.
Qed.

(** * Canonical decomposition preserves starter-ness at the head. *)
Lemma chk_canon_head : tall (fun (c : N) (d : list N) => match d with [] => false | x :: _ => (ccc c =? 0) || negb (ccc x =? 0) end) trie_canon = true.
Proof. vm_compute. reflexivity. Qed.

Global Opaque ccc cd kd compose qc_nfc is_public_assigned cjk_variant.
