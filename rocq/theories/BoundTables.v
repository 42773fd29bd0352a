(** The sizes of the tables' entries (C78). *)
From Coq Require Import NArith Arith List Bool Lia ZifyBool ZifyNat ZifyN.
From Verif Require Import Base Ucd UcdTables Norm Chars TextTables TextUtils UcdFacts NormFacts CharFacts SpecText TextFacts PipelineFacts IsoFacts ConcatFacts EdgeFacts
  Utf8 Utf8Facts SpecUtf8 Input SpecRead Strings SpecString ReadFacts ReadProps BoundProps.
Import ListNotations.
Local Open Scope N_scope.
Arguments N.add : simpl never.
Arguments N.leb : simpl never.
Arguments N.ltb : simpl never.
Arguments N.eqb : simpl never.
Transparent ccc cd kd compose qc_nfc is_public_assigned cjk_variant.

(** Sizes are in thirteenths of a byte. *)
Definition unit (c : N) : nat := (13 * utf8_len c)%nat.
Definition four (c : N) : nat := (4 * unit c)%nat.

Definition small (c : N) : bool :=
  if Nat.leb (weight unit c + 52) (four c) then true
  else Nat.leb (weight unit c + (if is_basic_text_start c then 0 else 26) + (if is_basic_text_end c then 0 else 26)) (four c).
Lemma chk_canon_small : tall (fun c (_ : list N) => small c) trie_canon = true. Proof. vm_compute. reflexivity. Qed.
Lemma chk_cjk_small : tall (fun c (_ : N * N) => small c) trie_cjk = true. Proof. vm_compute. reflexivity. Qed.
Lemma chk_ascii_small : range_all (fun c => small c && is_assigned c) 0 0x7F = true. Proof. vm_compute. reflexivity. Qed.
Lemma chk_canon_leading : tall (fun c (d : list N) => Nat.leb (leading d) 4) trie_canon = true. Proof. vm_compute. reflexivity. Qed.
Lemma chk_compat_leading : tall (fun c (d : list N) => Nat.leb (leading d) 4) trie_compat = true. Proof. vm_compute. reflexivity. Qed.
Lemma chk_comp_small : tall (fun a l => forallb (fun br => Nat.leb (utf8_len (snd br)) (utf8_len a + utf8_len (fst br))) l) trie_comp = true. Proof. vm_compute. reflexivity. Qed.
(** A U+FFFD is counted as one byte: it may stand for one malformed byte. *)
Definition allow (c : N) : nat := if c =? REPL then 52%nat else four c.
Lemma chk_rep_small : forallb (fun c => Nat.leb (charge unit (replace c)) (four c))
    [BOM; 0x149; 0x673; 0xF77; 0xF79; 0x17A3; 0x17A4; 0x2DF5; 0x111C4; LS; PS; 0xFB00; 0xFB01; 0xFB02; 0xFB03; 0xFB04; 0xFB05; 0xFB06; FF; NEL] = true.
Proof. vm_compute. reflexivity. Qed.
Lemma charge_REPL : charge unit [REPL] = 39%nat. Proof. vm_compute. reflexivity. Qed.
Lemma weight_consts : weight unit LF = unit LF /\ weight unit SP = unit SP /\ weight unit CGJ = unit CGJ. Proof. vm_compute. auto. Qed.
Lemma hangul_ends : disjoint ([(ZWJ, ZWJ)] ++ tbl_preceding_repha ++ tbl_consonant_prefixed ++ tbl_prepended_concatenation_mark) [(0xAC00, 0xD7A3)] = true.
Proof. vm_compute. reflexivity. Qed.
Lemma hangul_end : forall c, is_hangul_syllable c = true -> is_basic_text_end c = true.
Proof.
  intros c H. destruct (is_basic_text_end c) eqn:E; [reflexivity|exfalso].
  assert (K : in_ranges c ([(ZWJ, ZWJ)] ++ tbl_preceding_repha ++ tbl_consonant_prefixed ++ tbl_prepended_concatenation_mark) = true).
  { rewrite !in_ranges_app. cbn [in_ranges existsb fst snd]. rewrite in_range_single. unfold is_basic_text_end in E.
    fold (in_ranges c tbl_preceding_repha). destruct (c =? ZWJ); [reflexivity|].
    destruct (in_ranges c tbl_preceding_repha), (in_ranges c tbl_consonant_prefixed), (in_ranges c tbl_prepended_concatenation_mark); cbn in *; auto. }
  apply (disjoint_spec _ _ _ hangul_ends) in K. cbn [in_ranges existsb fst snd] in K. unfold in_range in K. unfold is_hangul_syllable, S_BASE, S_COUNT in H. lia.
Qed.
Lemma unit_low : forall c, (13 <= unit c)%nat /\ (0x80 <= c -> (26 <= unit c)%nat) /\ (0x800 <= c -> (39 <= unit c)%nat).
Proof. intro c. unfold unit, utf8_len. destruct (c <? 0x80) eqn:E1; destruct (c <? 0x800) eqn:E2; destruct (c <? 0x10000) eqn:E3; lia. Qed.
Lemma few_leading : forall c, (cl_leading c <= 4)%nat.
Proof.
  intro c. unfold cl_leading. destruct ((c <=? 0x7F) || is_hangul_syllable c) eqn:E; [lia|]. destruct (kd_cases c) as [-> | [[H _] | [H|H]]].
  - cbn. destruct (nonstarter c); lia.
  - rewrite H, orb_true_r in E. discriminate.
  - apply (tall_spec _ _ _ _ _ chk_canon_leading) in H. apply Nat.leb_le in H. exact H.
  - apply (tall_spec _ _ _ _ _ chk_compat_leading) in H. apply Nat.leb_le in H. exact H.
Qed.

Lemma chk_compat_ripe : tall (fun c (d : list N) => Nat.leb (ripe c) 18) trie_compat = true. Proof. vm_compute. reflexivity. Qed.
Lemma chk_canon_ripe : tall (fun c (d : list N) => Nat.leb (ripe c) 18) trie_canon = true. Proof. vm_compute. reflexivity. Qed.
Lemma ripe_small : forall c, (ripe c <= 18)%nat.
Proof.
  intro c. destruct (kd_cases c) as [H | [[H K] | [H|H]]].
  - unfold ripe, cl_len, cl_leading, cl_trailing. rewrite H. cbn [length rev app leading]. destruct ((c <=? 0x7F) || is_hangul_syllable c), (nonstarter c); cbn; lia.
  - unfold ripe, cl_len, cl_leading, cl_trailing. rewrite K, H, orb_true_r. unfold decompose_hangul. destruct (_ =? 0); cbn; lia.
  - apply (tall_spec _ _ _ _ _ chk_canon_ripe) in H. apply Nat.leb_le in H. exact H.
  - apply (tall_spec _ _ _ _ _ chk_compat_ripe) in H. apply Nat.leb_le in H. exact H.
Qed.

Lemma compose_unit : forall a b c, compose a b = Some c -> (unit c <= unit a + unit b)%nat.
Proof.
  intros a b c H. unfold compose in H. destruct (compose_hangul a b) as [r|] eqn:E.
  - injection H as <-. unfold compose_hangul in E.
    assert (K : 0x800 <= a /\ r < 0x10000).
    { destruct (in_range a L_BASE (L_BASE + L_COUNT - 1) && in_range b V_BASE (V_BASE + V_COUNT - 1)) eqn:E1.
      - injection E as <-. unfold in_range, L_BASE, L_COUNT, V_BASE, V_COUNT, S_BASE, N_COUNT, T_COUNT in *. lia.
      - destruct (in_range a S_BASE (S_BASE + S_COUNT - 1) && in_range b (T_BASE + 1) (T_BASE + T_COUNT - 1) && ((a - S_BASE) mod T_COUNT =? 0)) eqn:E2; [|discriminate].
        injection E as <-. unfold in_range, S_BASE, S_COUNT, T_BASE, T_COUNT in *. lia. }
    pose proof (unit_low a) as (_ & _ & U). assert (unit r <= 39)%nat by (unfold unit, utf8_len; assert (r <? 0x10000 = true) as -> by lia; destruct (r <? 0x80), (r <? 0x800); lia).
    destruct K as [K1 K2]. specialize (U K1). lia.
  - unfold compose_table in H. destruct (nfind a trie_comp) as [l|] eqn:EN; [|discriminate]. apply (tall_spec _ _ _ _ _ chk_comp_small) in EN. cbn beta in EN.
    assert (K : In (b, c) l).
    { clear - H. induction l as [|[x r] l IH]; [discriminate|]. cbn in H. destruct (x =? b) eqn:EX; [injection H as <-; apply N.eqb_eq in EX; subst; now left|right; auto]. }
    rewrite forallb_forall in EN. specialize (EN _ K). cbn [fst snd] in EN. apply Nat.leb_le in EN. unfold unit. lia.
Qed.
Lemma char_small : forall c, (weight unit c + (if is_basic_text_start c then 0 else 26) + (if is_basic_text_end c then 0 else 26) <= four c)%nat.
Proof.
  intro c. assert (SM : small c = true -> (weight unit c + (if is_basic_text_start c then 0 else 26) + (if is_basic_text_end c then 0 else 26) <= four c)%nat).
  { unfold small. intro H. destruct (Nat.leb (weight unit c + 52) (four c)) eqn:E; [apply Nat.leb_le in E; destruct (is_basic_text_start c), (is_basic_text_end c); lia|now apply Nat.leb_le in H]. }
  destruct (c <=? 0x7F) eqn:EA.
  { apply SM. assert (R : in_range c 0 0x7F = true) by (unfold in_range; lia). pose proof (range_all_spec _ _ _ _ chk_ascii_small R) as K. cbn beta in K. now apply andb_prop in K. }
  destruct (unit_low c) as (_ & U & U3). assert (U2 : (26 <= unit c)%nat) by (apply U; lia). unfold four.
  destruct (is_assigned c) eqn:AS.
  - destruct (nfind c trie_cjk) as [p|] eqn:EJ; [apply SM; exact (tall_spec _ _ _ _ _ chk_cjk_small EJ)|].
    destruct (nfind c trie_canon) as [d|] eqn:EC; [apply SM; exact (tall_spec _ _ _ _ _ chk_canon_small EC)|].
    assert (J : cjk1 c = [c]) by (unfold cjk1, cjk_variant; now rewrite EA, EJ). unfold weight. rewrite AS, J. cbn [total]. unfold piece.
    destruct (is_hangul_syllable c) eqn:EH.
    + rewrite (hangul_end c EH). assert (ripe c = 0%nat) as ->.
      { unfold ripe, cl_leading, cl_trailing, cl_len, kd. rewrite EH, EA. cbn [orb]. unfold decompose_hangul. now destruct (_ =? 0). }
      assert (T : (total unit (cd c) <= 117)%nat).
      { unfold cd. rewrite EA, EH. unfold decompose_hangul. unfold is_hangul_syllable, S_BASE, S_COUNT in EH.
        assert (B : forall x, x < 0x10000 -> (unit x <= 39)%nat) by (intros x H; unfold unit, utf8_len; assert (x <? 0x10000 = true) as -> by lia; destruct (x <? 0x80), (x <? 0x800); lia).
        unfold L_BASE, V_BASE, T_BASE, S_BASE, N_COUNT, T_COUNT.
        assert (B1 : (unit (0x1100 + (c - 0xAC00) / 588) <= 39)%nat) by (apply B; assert ((c - 0xAC00) / 588 < 19) by (apply N.div_lt_upper_bound; lia); lia).
        assert (B2 : (unit (0x1161 + (c - 0xAC00) mod 588 / 28) <= 39)%nat) by (apply B; assert ((c - 0xAC00) mod 588 / 28 < 21) by (apply N.div_lt_upper_bound; [lia|]; pose proof (N.mod_lt (c - 0xAC00) 588); lia); lia).
        assert (B3 : (unit (0x11A7 + (c - 0xAC00) mod 28) <= 39)%nat) by (apply B; pose proof (N.mod_lt (c - 0xAC00) 28); lia).
        destruct (_ =? 0); cbn [total]; lia. }
      assert (39 <= unit c)%nat by (apply U3; unfold is_hangul_syllable, S_BASE, S_COUNT in EH; lia). destruct (is_basic_text_start c); lia.
    + assert (D : cd c = [c]) by (unfold cd; now rewrite EA, EH, EC). rewrite D. cbn [total].
      assert (ripe c <= 18)%nat by apply ripe_small. destruct (is_basic_text_start c), (is_basic_text_end c); lia.
  - pose proof (unassigned_boring c AS) as B. assert (ES : is_basic_text_start c = true) by (destruct (is_basic_text_start c) eqn:E; [reflexivity|]; apply nonstart_assigned in E; congruence).
    assert (EE : is_basic_text_end c = true) by (destruct (is_basic_text_end c) eqn:E; [reflexivity|]; apply nonend_assigned in E; congruence). rewrite ES, EE.
    unfold weight. rewrite AS, (b_cjk _ B). cbn [total]. unfold piece. destruct (b_inert _ B) as (_ & F & _). unfold full in F. rewrite F. cbn [total].
    assert (ripe c = 0%nat) as ->.
    { destruct (boring_leading c B) as [L1 L2]. specialize (L2 0%nat). unfold count_next in L2. unfold ripe. destruct (Nat.eqb _ _); lia. }
    change (unit CGJ) with 26%nat. lia.
Qed.

Lemma four_allow : forall c, (allow c <= four c)%nat.
Proof. intro c. unfold allow. destruct (c =? REPL); [|lia]. unfold four. pose proof (unit_low c). lia. Qed.
Lemma allow_one : forall c, (52 <= allow c)%nat.
Proof. intro c. unfold allow. destruct (c =? REPL); [lia|]. unfold four. pose proof (unit_low c). lia. Qed.
Lemma charge_one : forall c, charge unit [c] = (weight unit c + (if is_basic_text_start c then 0 else 26) + (if is_basic_text_end c then 0 else 26))%nat.
Proof. intro c. unfold charge, nonend. cbn [total head_opt last_opt opt_all]. change (unit CGJ) with 26%nat. lia. Qed.
Lemma charge_rep : forall c, (charge unit (replace c) <= allow c)%nat.
Proof.
  intro c. destruct (c =? REPL) eqn:ER; [apply N.eqb_eq in ER; subst c; vm_compute; lia|]. unfold allow. rewrite ER.
  destruct (existsb (N.eqb c) [BOM; 0x149; 0x673; 0xF77; 0xF79; 0x17A3; 0x17A4; 0x2DF5; 0x111C4; LS; PS; 0xFB00; 0xFB01; 0xFB02; 0xFB03; 0xFB04; 0xFB05; 0xFB06; FF; NEL]) eqn:EX.
  - apply existsb_exists in EX. destruct EX as (x & I & Q). apply N.eqb_eq in Q. subst x. pose proof chk_rep_small as K. rewrite forallb_forall in K. apply Nat.leb_le. exact (K _ I).
  - assert (R : replace c = [REPL] \/ replace c = [c]).
    { cbn [existsb] in EX. repeat (apply orb_false_elim in EX; destruct EX as [? EX]). unfold replace. repeat match goal with H : (c =? _) = false |- _ => rewrite H; clear H end. cbn [orb].
      destruct (_ || _); auto. }
    destruct R as [-> | ->]; [rewrite charge_REPL; pose proof (unit_low c); unfold four; lia|]. rewrite charge_one. apply char_small.
Qed.
Global Opaque ccc cd kd compose qc_nfc is_public_assigned cjk_variant.

Lemma total_unit : forall s, total unit s = (13 * str_len s)%nat.
Proof. induction s as [|c s IH]; [reflexivity|]. cbn [total str_len]. rewrite IH. unfold unit. lia. Qed.
Lemma cgj_small : (unit CGJ <= 26)%nat. Proof. vm_compute. lia. Qed.
Lemma reads_weighed : forall al, (forall c, (allow c <= al c)%nat) -> forall nel lsps script sizes rs j rest, reads (new_input nel lsps) script sizes = (rs, j, rest) ->
  (13 * str_len (delivered rs) + total al (stream_text rest) <= total al (stream_text script) + 13)%nat.
Proof.
  intros al A nel lsps script sizes rs j rest H.
  assert (R : forall c, (charge unit (replace c) <= al c)%nat) by (intro c; pose proof (A c); pose proof (charge_rep c); lia).
  assert (L : forall c, (unit LF <= al c /\ unit SP <= al c)%nat) by (intro c; pose proof (A c); pose proof (allow_one c); change (unit LF) with 13%nat; change (unit SP) with 13%nat; lia).
  pose proof (reads_stock unit compose_unit cgj_small few_leading al R L weight_consts _ _ _ _ _ _ H) as K.
  rewrite total_unit in K. assert (S0 : stock unit (new_input nel lsps) = 0%nat) by reflexivity. rewrite S0 in K. pose proof (due_le unit cgj_small weight_consts script (new_input nel lsps)) as D. change (unit LF) with 13%nat in D. lia.
Qed.
Theorem reads_bound : forall nel lsps script sizes rs j rest, reads (new_input nel lsps) script sizes = (rs, j, rest) ->
  (str_len (delivered rs) + 4 * str_len (stream_text rest) <= 4 * str_len (stream_text script) + 1)%nat.
Proof.
  intros nel lsps script sizes rs j rest H. apply (reads_weighed four four_allow) in H.
  assert (T : forall s, total four s = (52 * str_len s)%nat) by (induction s as [|c s IH]; [reflexivity|]; cbn [total str_len]; rewrite IH; unfold four, unit; lia).
  rewrite !T in H. lia.
Qed.
Theorem bytes_bound : forall nel lsps script sizes rs j rest bytes, reads (new_input nel lsps) script sizes = (rs, j, rest) ->
  lossy_decoding bytes (stream_text script) -> (str_len (delivered rs) <= 4 * length bytes + 1)%nat.
Proof.
  intros nel lsps script sizes rs j rest bytes H E. apply (reads_weighed allow (fun c => Nat.le_refl _)) in H.
  assert (T : (total allow (stream_text script) <= 52 * length bytes)%nat).
  { clear H. induction E as [|c t r SC E IH|m t r M E IH]; [reflexivity| |].
    - cbn [total]. rewrite app_length, (encode_length c). pose proof (four_allow c). unfold four, unit in *. lia.
    - cbn [total]. rewrite app_length. change (allow 0xFFFD) with 52%nat. destruct M as (M & _). destruct m; [congruence|]. cbn [length]. lia. }
  lia.
Qed.

Theorem lossy_bound : forall v t, lossy v (Some t) -> (str_len t <= 4 * str_len v + 4)%nat.
Proof.
  intros v t (text & (script & sizes & rs & j & rest & E1 & _ & _ & _ & E2 & _ & ->) & E).
  apply reads_bound in E2. rewrite E1 in E2.
  assert (R : (str_len (received rs) <= str_len (delivered rs))%nat).
  { clear. unfold received, delivered. induction rs as [|[r cs] rs IH]; [reflexivity|]. cbn [flat_map fst snd]. rewrite !str_len_app. destruct r; cbn [str_len]; lia. }
  assert (RL : forall s, (str_len (removelast s) <= str_len s)%nat).
  { induction s as [|c [|d s] IH]; [reflexivity|cbn; lia|]. change (removelast (c :: d :: s)) with (c :: removelast (d :: s)). cbn [str_len] in *. lia. }
  symmetry in E. unfold lossy_result in E. assert (W : str_len [WJ] = 3%nat) by reflexivity. cbn [str_len] in W.
  assert (F : forall v' x, match last_opt v' with None => Some x | Some c => if (c =? LF) || (c =? CR) then Some x
     else match last_opt x with Some l => if l =? LF then Some (removelast x) else None | None => None end end = Some t -> (str_len t <= str_len x)%nat).
  { intros v' x H. destruct (last_opt v'); [destruct (_ || _); [|destruct (last_opt x); [destruct (_ =? LF)|]]|]; try discriminate; injection H as <-; auto. }
  destruct v as [|c v]; [apply F in E; lia|]. destruct (c =? BOM); apply F in E; cbn [str_len] in *; lia.
Qed.
