(** Facts about single characters: the tables of Chars.v against the Unicode
    tables.  Each is a finite check over a table, lifted to all characters. *)
From Coq Require Import NArith List Bool Lia ZifyBool ZifyNat ZifyN.
From Verif Require Import Base Ucd Norm Chars TextTables TextUtils UcdFacts NormFacts.
Import ListNotations.
Local Open Scope N_scope.
Arguments N.add : simpl never.
Arguments N.leb : simpl never.
Arguments N.ltb : simpl never.
Arguments N.eqb : simpl never.

(** * Range tables *)
Lemma in_ranges_app : forall c a b, in_ranges c (a ++ b) = in_ranges c a || in_ranges c b.
Proof. intros c a b. unfold in_ranges. apply existsb_app. Qed.

(** [lo..hi] minus the first table range meeting it, until nothing is left *)
Fixpoint cover (fuel : nat) (lo hi : N) (l : list (N * N)) : bool :=
  if hi <? lo then true
  else match fuel with
       | O => false
       | S f => match find (fun r => in_range lo (fst r) (snd r)) l with
                | Some r => cover f (snd r + 1) hi l
                | None => false
                end
       end.

Lemma cover_spec : forall f lo hi l c, cover f lo hi l = true -> in_range c lo hi = true -> in_ranges c l = true.
Proof.
  induction f as [|f IH]; intros lo hi l c H HC; cbn [cover] in H.
  - unfold in_range in HC. destruct (hi <? lo) eqn:E; [lia|discriminate].
  - destruct (hi <? lo) eqn:E; [unfold in_range in HC; lia|].
    destruct (find _ l) as [r|] eqn:F; [|discriminate].
    apply find_some in F. destruct F as [F1 F2].
    destruct (c <=? snd r) eqn:C.
    + unfold in_ranges. apply existsb_exists. exists r. split; [exact F1|]. unfold in_range in *. lia.
    + apply (IH _ _ _ _ H). unfold in_range in *. lia.
Qed.

Definition subset (a b : list (N * N)) : bool := forallb (fun r => cover 200 (fst r) (snd r) b) a.

Lemma subset_spec : forall a b c, subset a b = true -> in_ranges c a = true -> in_ranges c b = true.
Proof.
  intros a b c H HC. unfold in_ranges in HC. apply existsb_exists in HC. destruct HC as (r & R1 & R2).
  unfold subset in H. rewrite forallb_forall in H. exact (cover_spec _ _ _ _ _ (H r R1) R2).
Qed.

Definition disjoint (a b : list (N * N)) : bool :=
  forallb (fun r => forallb (fun q => (snd r <? fst q) || (snd q <? fst r)) b) a.

Lemma disjoint_spec : forall a b c, disjoint a b = true -> in_ranges c a = true -> in_ranges c b = false.
Proof.
  intros a b c H HC. apply not_true_is_false. intro HB. unfold in_ranges in HC, HB.
  apply existsb_exists in HC, HB. destruct HC as (r & R1 & R2). destruct HB as (q & Q1 & Q2).
  unfold disjoint in H. rewrite forallb_forall in H. specialize (H r R1). rewrite forallb_forall in H. specialize (H q Q1).
  unfold in_range in *. lia.
Qed.

(** all members of a small table *)
Definition range_all (P : N -> bool) (lo hi : N) : bool :=
  forallb (fun i => P (lo + N.of_nat i)) (seq 0 (S (N.to_nat (hi - lo)))).
Lemma range_all_spec : forall P lo hi c, range_all P lo hi = true -> in_range c lo hi = true -> P c = true.
Proof.
  intros P lo hi c H HC. unfold range_all in H. rewrite forallb_forall in H.
  unfold in_range in HC. replace c with (lo + N.of_nat (N.to_nat (c - lo))) by lia.
  apply H. apply in_seq. lia.
Qed.
Definition ranges_all (P : N -> bool) (l : list (N * N)) : bool := forallb (fun r => range_all P (fst r) (snd r)) l.
Lemma ranges_all_spec : forall P l c, ranges_all P l = true -> in_ranges c l = true -> P c = true.
Proof.
  intros P l c H HC. unfold in_ranges in HC. apply existsb_exists in HC. destruct HC as (r & R1 & R2).
  unfold ranges_all in H. rewrite forallb_forall in H. exact (range_all_spec _ _ _ _ (H r R1) R2).
Qed.

(** * Characters that normalization never touches *)
Record boring (c : N) : Prop := {
  b_inert : inert c;
  b_pat : pat c = [false];
  b_cjk : cjk1 c = [c];
  b_yes : yes c
}.

Definition is_none {A} (o : option A) : bool := match o with None => true | _ => false end.

Definition boring_b (c : N) : bool :=
  is_none (nfind c trie_ccc) && is_none (nfind c trie_canon) && is_none (nfind c trie_compat)
  && is_none (nfind c trie_comp) && is_none (nfind c trie_qc) && is_none (nfind c trie_cjk)
  && negb (is_hangul_syllable c) && negb (in_range c L_BASE (L_BASE + L_COUNT - 1)).

Transparent ccc cd kd compose qc_nfc is_public_assigned cjk_variant.
Lemma boring_b_spec : forall c, boring_b c = true -> boring c.
Proof.
  intros c H. unfold boring_b in H.
  repeat (apply andb_prop in H; let H' := fresh in destruct H as [H H']).
  unfold is_none in *.
  destruct (nfind c trie_ccc) eqn:E1; [discriminate|].
  destruct (nfind c trie_canon) eqn:E2; [discriminate|].
  destruct (nfind c trie_compat) eqn:E3; [discriminate|].
  destruct (nfind c trie_comp) eqn:E4; [discriminate|].
  destruct (nfind c trie_qc) eqn:E5; [discriminate|].
  destruct (nfind c trie_cjk) eqn:E6; [discriminate|].
  assert (HH : is_hangul_syllable c = false) by now destruct (is_hangul_syllable c).
  assert (C : ccc c = 0) by (unfold ccc; now rewrite E1).
  assert (Q : qc_nfc c = Yes) by (unfold qc_nfc; now rewrite E5).
  assert (K : kd c = [c]). { unfold kd. rewrite HH, E2, E3. now destruct (c <=? 127). }
  split.
  - repeat split.
    + exact C.
    + unfold full, cd. rewrite HH, E2. now destruct (c <=? 127).
    + intro k. apply compose_second. congruence.
    + intro d. unfold compose, compose_hangul, compose_table. rewrite E4.
      assert (in_range c S_BASE (S_BASE + S_COUNT - 1) = false) as ->.
      { unfold is_hangul_syllable, in_range, S_BASE, S_COUNT in *. lia. }
      destruct (in_range c L_BASE (L_BASE + L_COUNT - 1)); [discriminate|reflexivity].
  - unfold pat. rewrite K. cbn [map]. unfold nonstarter. rewrite C. reflexivity.
  - unfold cjk1, cjk_variant. rewrite E6. now destruct (c <=? 127).
  - exact Q.
Qed.

(** every key of every table is assigned *)
Lemma chk_ccc_pub : tall (fun (c : N) _ => is_public_assigned c) trie_ccc = true.
Proof. vm_compute. reflexivity. Qed.
Lemma chk_canon_pub : tall (fun (c : N) _ => is_public_assigned c) trie_canon = true.
Proof. vm_compute. reflexivity. Qed.
Lemma chk_compat_pub : tall (fun (c : N) _ => is_public_assigned c) trie_compat = true.
Proof. vm_compute. reflexivity. Qed.
Lemma chk_comp_pub : tall (fun (c : N) _ => is_public_assigned c) trie_comp = true.
Proof. vm_compute. reflexivity. Qed.
Lemma chk_qc_pub : tall (fun (c : N) _ => is_public_assigned c) trie_qc = true.
Proof. vm_compute. reflexivity. Qed.
Lemma chk_cjk_pub : tall (fun (c : N) _ => is_public_assigned c) trie_cjk = true.
Proof. vm_compute. reflexivity. Qed.
Lemma not_public_hangul : ranges_all is_public_assigned [(0x1100, 0x1112)] = true.
Proof. vm_compute. reflexivity. Qed.

(** the search tree holds the ranges it was built from *)
Lemma rmem_rlist : forall t c, rmem c t = true -> in_ranges c (rlist t) = true.
Proof.
  induction t as [|l IHl lo hi r IHr]; intros c H; [discriminate|]. cbn [rmem rlist] in *.
  rewrite in_ranges_app. cbn [in_ranges existsb fst snd].
  destruct (c <? lo) eqn:E1; [rewrite IHl by exact H; reflexivity|].
  destruct (c <=? hi) eqn:E2.
  - assert (in_range c lo hi = true) as -> by (unfold in_range; lia). cbn. apply orb_true_r.
  - apply IHr in H. unfold in_ranges in H. rewrite H. rewrite !orb_true_r. reflexivity.
Qed.
Lemma disjoint_not_public : disjoint (rlist rtree_not_public) [(0xAC00, 0xD7A3)] = true.
Proof. vm_compute. reflexivity. Qed.

Lemma not_public_boring : forall c, is_public_assigned c = false -> boring c.
Proof.
  intros c H. apply boring_b_spec. unfold boring_b.
  assert (F : forall A (t : trie A), tall (fun (c : N) _ => is_public_assigned c) t = true -> is_none (nfind c t) = true).
  { intros A t Ht. destruct (nfind c t) eqn:E; [|reflexivity]. pose proof (tall_spec _ _ _ _ _ Ht E). cbn in *. congruence. }
  rewrite (F _ _ chk_ccc_pub), (F _ _ chk_canon_pub), (F _ _ chk_compat_pub), (F _ _ chk_comp_pub), (F _ _ chk_qc_pub), (F _ _ chk_cjk_pub).
  cbn [andb]. apply andb_true_intro. split.
  - unfold is_public_assigned in H. apply negb_false_iff in H. apply rmem_rlist in H.
    apply (disjoint_spec _ _ _ disjoint_not_public) in H. unfold is_hangul_syllable, S_BASE, S_COUNT.
    cbn [in_ranges existsb fst snd] in H. unfold in_range in H. lia.
  - destruct (in_range c L_BASE (L_BASE + L_COUNT - 1)) eqn:E; [|reflexivity].
    pose proof (ranges_all_spec _ _ c not_public_hangul) as R. cbn [in_ranges existsb fst snd] in R.
    unfold in_range, L_BASE, L_COUNT in E. rewrite R in H; [discriminate|]. unfold in_range. lia.
Qed.

Global Opaque ccc cd kd compose qc_nfc is_public_assigned cjk_variant.

Lemma boring_CGJ : boring CGJ. Proof. apply boring_b_spec. vm_compute. reflexivity. Qed.
Lemma boring_LF : boring LF. Proof. apply boring_b_spec. vm_compute. reflexivity. Qed.
Lemma boring_CR : boring CR. Proof. apply boring_b_spec. vm_compute. reflexivity. Qed.
Lemma boring_SP : boring SP. Proof. apply boring_b_spec. vm_compute. reflexivity. Qed.
Lemma boring_WJ : boring WJ. Proof. apply boring_b_spec. vm_compute. reflexivity. Qed.
Lemma boring_SUB : boring SUB. Proof. apply boring_b_spec. vm_compute. reflexivity. Qed.
Lemma boring_ESC : boring ESC. Proof. apply boring_b_spec. vm_compute. reflexivity. Qed.

Lemma unassigned_boring : forall c, is_assigned c = false -> boring c.
Proof. intros c H. apply not_public_boring. unfold is_assigned in H. now destruct (is_public_assigned c). Qed.

Lemma assigned_CGJ : is_assigned CGJ = true. Proof. vm_compute. reflexivity. Qed.
Lemma assigned_LF : is_assigned LF = true. Proof. vm_compute. reflexivity. Qed.
Lemma assigned_SUB : is_assigned SUB = true. Proof. vm_compute. reflexivity. Qed.

(** * Forbidden characters *)
(** accepted by [check_basic_text_char] and not ESC: what is_basic_text_substr asks of every character *)
Definition clean (c : N) : bool := check_ok c && negb (c =? ESC).

Definition tbl_bad : list (N * N) :=
  [(0, 8); (0xB, 0x1A); (0x1B, 0x1B); (0x1C, 0x1F); (0x7F, 0x9F)] ++ tbl_replacement ++ [(0xE0001, 0xE0001); (0xFFF9, 0xFFFB);
   (0x17B4, 0x17B5); (0x17D8, 0x17D8); (0x206A, 0x206F); (0x2028, 0x2028); (0x2029, 0x2029); (0x202A, 0x202E);
   (0x2066, 0x2069)] ++ tbl_nonchar ++ [(0xFFFC, 0xFFFC); (0xFEFF, 0xFEFF)].

Lemma clean_bad : forall c, clean c = negb (in_ranges c tbl_bad).
Proof.
  intro c. unfold clean, check_ok, check_basic_text_char, tbl_bad.
  rewrite !in_ranges_app.
  destruct (in_ranges c tbl_replacement) eqn:E1; destruct (in_ranges c tbl_nonchar) eqn:E2;
    cbn [in_ranges existsb fst snd]; unfold is_control, in_range, LF, TAB, ESC, ORC, BOM;
    repeat match goal with |- context [if ?b then _ else _] => match type of b with bool => destruct b eqn:? end end; lia.
Qed.

(** ** What [replace] changes and into what *)
Definition tbl_replaced : list (N * N) :=
  [(0xFEFF,0xFEFF); (0x149,0x149); (0x673,0x673); (0xF77,0xF77); (0xF79,0xF79); (0x17A3,0x17A3); (0x17A4,0x17A4);
   (0x2DF5,0x2DF5); (0x111C4,0x111C4); (0x2028,0x2028); (0x2029,0x2029); (0xFB00,0xFB00); (0xFB01,0xFB01); (0xFB02,0xFB02);
   (0xFB03,0xFB03); (0xFB04,0xFB04); (0xFB05,0xFB05); (0xFB06,0xFB06); (0xC,0xC); (0x85,0x85)] ++ tbl_repl ++ tbl_nonchar.
Definition replace_out : list N :=
  [WJ; 0x2BC; 0x6E; 0x627; 0x65F; 0xFB2; 0xF81; 0xFB3; 0x17A2; 0x17B6; 0x2DED; 0x2DEE; 0x1118F; 0x11180; SP;
   0x66; 0x69; 0x6C; 0x17F; 0x74; 0x73; REPL].
(** compatibility ideographs and the three letters that NFC maps *)
Definition tbl_compat_ideographs : list (N * N) := [
  (0xF900,0xFA0D); (0xFA10,0xFA10); (0xFA12,0xFA12); (0xFA15,0xFA1E);
  (0xFA20,0xFA20); (0xFA22,0xFA22); (0xFA25,0xFA26); (0xFA2A,0xFA6D);
  (0xFA70,0xFAD9); (0x2F800,0x2FA1D)].
Definition tbl_normalized_away : list (N * N) := [(0x2126,0x2126); (0x212A,0x212B)].

Lemma in_range_single : forall c k, in_range c k k = (c =? k).
Proof. intros. unfold in_range. lia. Qed.

Definition replaced_ok (l : list N) : bool :=
  forallb (fun x => existsb (N.eqb x) replace_out) l && negb (list_eqb l []).
Lemma replace_spec_b : forall c, if in_ranges c tbl_replaced then replaced_ok (replace c) = true else replace c = [c].
Proof.
  intro c. unfold tbl_replaced. rewrite !in_ranges_app. cbn [in_ranges existsb fst snd]. rewrite !in_range_single.
  unfold replace, BOM, LS, PS, FF, NEL.
  generalize (in_ranges c tbl_repl) (in_ranges c tbl_nonchar). intros p q.
  repeat match goal with |- context [c =? ?k] => destruct (c =? k); [rewrite ?orb_true_r; reflexivity|] end.
  destruct p, q; reflexivity.
Qed.
Lemma replace_spec : forall c,
  if in_ranges c tbl_replaced then Forall (fun x => In x replace_out) (replace c) /\ replace c <> [] else replace c = [c].
Proof.
  intro c. pose proof (replace_spec_b c) as H. destruct (in_ranges c tbl_replaced); [|exact H].
  unfold replaced_ok in H. apply andb_prop in H. destruct H as [H1 H2]. split; [|intro E; rewrite E in H2; discriminate].
  apply Forall_forall. intros x HX. rewrite forallb_forall in H1. specialize (H1 x HX).
  apply existsb_exists in H1. destruct H1 as (y & Y & E). apply N.eqb_eq in E. now subst.
Qed.

Lemma chk_replaced_bad : subset tbl_replaced tbl_bad = true.
Proof. vm_compute. reflexivity. Qed.
Lemma chk_bad_replaced : subset tbl_bad (tbl_replaced ++ [(ESC, ESC)] ++ tbl_compat_ideographs ++ tbl_normalized_away) = true.
Proof. vm_compute. reflexivity. Qed.

Lemma clean_replace : forall c, clean c = true -> replace c = [c].
Proof.
  intros c H. pose proof (replace_spec c) as R. destruct (in_ranges c tbl_replaced) eqn:E; [|exact R].
  apply (subset_spec _ _ _ chk_replaced_bad) in E. rewrite clean_bad, E in H. discriminate.
Qed.

Transparent ccc cd kd compose qc_nfc is_public_assigned cjk_variant.

Definition goodb (x : N) : bool := forallb (fun y => forallb clean (cd y)) (cjk1 x).

Lemma chk_canon_clean : tall (fun (c : N) (d : list N) => forallb clean d) trie_canon = true.
Proof. vm_compute. reflexivity. Qed.
Lemma chk_cjk_good : tall (fun (c : N) (d : N * N) => goodb c && negb (clean c) && (0x7F <? c)) trie_cjk = true.
Proof. vm_compute. reflexivity. Qed.
Definition comp_clean (a b r : N) : bool := clean r && clean b.
Lemma chk_comp_clean : tall (fun a l => forallb (fun br => comp_clean a (fst br) (snd br)) l) trie_comp = true.
Proof. vm_compute. reflexivity. Qed.
Lemma chk_hangul_clean : disjoint [(0xAC00, 0xD7A3); (0x1100, 0x11FF)] tbl_bad = true.
Proof. vm_compute. reflexivity. Qed.
Lemma chk_replace_out_good : forallb goodb replace_out = true.
Proof. vm_compute. reflexivity. Qed.
Lemma chk_tables_good : ranges_all goodb (tbl_compat_ideographs ++ tbl_normalized_away) = true.
Proof. vm_compute. reflexivity. Qed.

Lemma jamo_clean : forall c, is_jamo c = true -> clean c = true.
Proof.
  intros c H. rewrite clean_bad. rewrite (disjoint_spec _ _ _ chk_hangul_clean); [reflexivity|].
  cbn [in_ranges existsb fst snd]. unfold is_jamo, in_range, L_BASE, L_COUNT, V_BASE, V_COUNT, T_BASE, T_COUNT in *. lia.
Qed.
Lemma hangul_clean : forall c, is_hangul_syllable c = true -> clean c = true.
Proof.
  intros c H. rewrite clean_bad. rewrite (disjoint_spec _ _ _ chk_hangul_clean); [reflexivity|].
  cbn [in_ranges existsb fst snd]. unfold is_hangul_syllable, in_range, S_BASE, S_COUNT in *. lia.
Qed.

(** decomposition of accepted characters is accepted *)
Lemma cd_clean : forall c, (clean c = true \/ cd c <> [c]) -> Forall (fun x => clean x = true) (cd c).
Proof.
  intros c H. destruct (cd_cases c) as [E|[[A E]|E]].
  - destruct H as [H|H]; [|congruence]. rewrite E. auto.
  - rewrite E. apply Forall_forall. intros x HI. apply jamo_clean. exact (hangul_jamo _ _ A HI).
  - apply (canon_lift _ chk_canon_clean) in E. cbn in E. apply Forall_forall. rewrite forallb_forall in E. exact E.
Qed.

Lemma compose_clean : forall k c r, compose k c = Some r -> clean r = true.
Proof.
  intros k c r H. destruct (compose_inv _ _ _ H) as [(H1 & H2 & ->)|[(H1 & H2 & H3 & ->)|H1]].
  - apply hangul_clean. apply LV_decompose; assumption.
  - apply hangul_clean. apply LVT_decompose; assumption.
  - apply (comp_lift comp_clean chk_comp_clean) in H1. unfold comp_clean in H1. apply andb_prop in H1. tauto.
Qed.

Lemma clean_cjk : forall c, clean c = true -> cjk1 c = [c].
Proof.
  intros c H. unfold cjk1. destruct (c <=? 127); [reflexivity|]. unfold cjk_variant.
  destruct (nfind c trie_cjk) as [[b v]|] eqn:E; [|reflexivity].
  apply (tall_spec _ _ _ _ _ chk_cjk_good) in E. cbn in E. rewrite H in E. rewrite andb_false_r in E. discriminate.
Qed.

Lemma good_spec : forall x y z, goodb x = true -> In y (cjk1 x) -> In z (cd y) -> clean z = true.
Proof.
  intros x y z H HY HZ. unfold goodb in H. rewrite forallb_forall in H. specialize (H _ HY).
  rewrite forallb_forall in H. now apply H.
Qed.

Lemma clean_good : forall x, clean x = true -> goodb x = true.
Proof.
  intros x H. unfold goodb. rewrite clean_cjk by exact H. cbn. rewrite andb_true_r. apply forallb_forall.
  apply Forall_forall. apply cd_clean. now left.
Qed.

Lemma replace_good : forall c, c <> ESC -> Forall (fun x => goodb x = true) (replace c).
Proof.
  intros c HE. pose proof (replace_spec c) as R. destruct (in_ranges c tbl_replaced) eqn:E.
  - destruct R as [R _]. eapply Forall_impl; [|exact R]. intros x HX.
    pose proof chk_replace_out_good as G. rewrite forallb_forall in G. now apply G.
  - rewrite R. constructor; [|constructor]. destruct (clean c) eqn:C; [now apply clean_good|].
    rewrite clean_bad in C. apply negb_false_iff in C. apply (subset_spec _ _ _ chk_bad_replaced) in C.
    rewrite in_ranges_app, E in C. cbn [orb] in C. rewrite in_ranges_app in C.
    assert (in_ranges c [(ESC, ESC)] = false) as X by (cbn; rewrite in_range_single; lia). rewrite X in C. cbn [orb] in C.
    exact (ranges_all_spec _ _ _ chk_tables_good C).
Qed.

(** * First characters *)
Definition tbl_not_start : list (N * N) :=
  [(ZWJ, ZWJ); (0xE33, 0xE33); (0xEB3, 0xEB3)] ++ tbl_grapheme_extend_not_cgj ++ tbl_emoji_modifier ++ tbl_gc_spacing_mark.
Lemma start_intro : forall c, ccc c = 0 -> in_ranges c tbl_not_start = false -> is_basic_text_start c = true.
Proof.
  intros c H1 H2. unfold tbl_not_start in H2. rewrite !in_ranges_app in H2.
  unfold is_basic_text_start, is_starter, is_spacing_mark_plus. rewrite H1.
  revert H2. generalize (in_ranges c tbl_grapheme_extend_not_cgj) (in_ranges c tbl_emoji_modifier) (in_ranges c tbl_gc_spacing_mark)
    (in_ranges c tbl_spacing_mark_exceptions). intros p q r e. cbn [in_ranges existsb fst snd]. rewrite !in_range_single.
  destruct (c =? ZWJ), (c =? 3635), (c =? 3763), p, q, r; cbn; intro H; try discriminate. rewrite orb_true_r. reflexivity.
Qed.
Lemma start_ccc : forall c, is_basic_text_start c = true -> ccc c = 0.
Proof.
  intros c H. unfold is_basic_text_start, is_starter in H. repeat (apply andb_prop in H; destruct H as [H _]).
  destruct (c <=? 127) eqn:E; [apply ccc_ascii; lia|]. cbn in H. lia.
Qed.

Lemma chk_hangul_start : disjoint [(0xAC00, 0xD7A3); (0x1100, 0x1112)] tbl_not_start = true.
Proof. vm_compute. reflexivity. Qed.
Lemma hangul_start : forall c, is_hangul_syllable c = true -> is_basic_text_start c = true.
Proof.
  intros c H. apply start_intro; [now apply ccc_hangul|]. apply (disjoint_spec _ _ _ chk_hangul_start).
  cbn [in_ranges existsb fst snd]. unfold is_hangul_syllable, in_range, S_BASE, S_COUNT in *. lia.
Qed.
Lemma jamoL_start : forall c, in_range c L_BASE (L_BASE + L_COUNT - 1) = true -> is_basic_text_start c = true.
Proof.
  intros c H. apply start_intro.
  - apply ccc_jamo. unfold is_jamo, in_range, L_BASE, L_COUNT in *. lia.
  - apply (disjoint_spec _ _ _ chk_hangul_start). cbn [in_ranges existsb fst snd]. unfold in_range, L_BASE, L_COUNT in *. lia.
Qed.
Lemma chk_canon_start : tall (fun (c : N) (d : list N) => implb (is_basic_text_start c) (is_basic_text_start (hd 0 d))) trie_canon = true.
Proof. vm_compute. reflexivity. Qed.
Definition comp_start (a b r : N) : bool := implb (is_basic_text_start a) (is_basic_text_start r).
Lemma chk_comp_start : tall (fun a l => forallb (fun br => comp_start a (fst br) (snd br)) l) trie_comp = true.
Proof. vm_compute. reflexivity. Qed.
Lemma chk_cjk_start : tall (fun (c : N) (d : N * N) => is_basic_text_start (fst d)) trie_cjk = true.
Proof. vm_compute. reflexivity. Qed.

Lemma start_cdh : forall c, is_basic_text_start c = true -> is_basic_text_start (cdh c) = true.
Proof.
  intros c H. unfold cdh. destruct (cd_cases c) as [E|[[A E]|E]].
  - rewrite E. exact H.
  - rewrite E. destruct (hangul_recompose c A) as (l & v & L & _ & [[-> _]|(lv & t & -> & _)]); cbn; now apply jamoL_start.
  - apply (canon_lift _ chk_canon_start) in E. cbn in E. rewrite H in E. exact E.
Qed.
Lemma start_compose : forall k c r, is_basic_text_start k = true -> compose k c = Some r -> is_basic_text_start r = true.
Proof.
  intros k c r HK H. destruct (compose_inv _ _ _ H) as [(H1 & H2 & ->)|[(H1 & H2 & H3 & ->)|H1]].
  - apply hangul_start. apply LV_decompose; assumption.
  - apply hangul_start. apply LVT_decompose; assumption.
  - apply (comp_lift comp_start chk_comp_start) in H1. unfold comp_start in H1. rewrite HK in H1. exact H1.
Qed.
Lemma start_cjk : forall c, is_basic_text_start c = true -> is_basic_text_start (hd 0 (cjk1 c)) = true.
Proof.
  intros c H. unfold cjk1. destruct (c <=? 127); [exact H|]. unfold cjk_variant.
  destruct (nfind c trie_cjk) as [[b v]|] eqn:E; [|exact H].
  apply (tall_spec _ _ _ _ _ chk_cjk_start) in E. exact E.
Qed.

(** * Last characters *)
Lemma chk_end_boring : ranges_all boring_b ([(ZWJ, ZWJ)] ++ tbl_preceding_repha ++ tbl_consonant_prefixed ++ tbl_prepended_concatenation_mark) = true.
Proof. vm_compute. reflexivity. Qed.
Lemma not_end_boring : forall c, is_basic_text_end c = false -> boring c.
Proof.
  intros c H. apply boring_b_spec. apply (ranges_all_spec _ _ _ chk_end_boring). rewrite !in_ranges_app.
  cbn [in_ranges existsb fst snd]. rewrite in_range_single. unfold is_basic_text_end in H.
  fold (in_ranges c tbl_preceding_repha). destruct (c =? ZWJ); [reflexivity|].
  destruct (in_ranges c tbl_preceding_repha), (in_ranges c tbl_consonant_prefixed), (in_ranges c tbl_prepended_concatenation_mark); cbn in *; auto.
Qed.

Global Opaque ccc cd kd compose qc_nfc is_public_assigned cjk_variant.

Lemma start_CGJ : is_basic_text_start CGJ = true. Proof. vm_compute. reflexivity. Qed.
Lemma start_LF : is_basic_text_start LF = true. Proof. vm_compute. reflexivity. Qed.
Lemma start_SP : is_basic_text_start SP = true. Proof. vm_compute. reflexivity. Qed.
Lemma start_WJ : is_basic_text_start WJ = true. Proof. vm_compute. reflexivity. Qed.
Lemma end_CGJ : is_basic_text_end CGJ = true. Proof. vm_compute. reflexivity. Qed.
Lemma end_LF : is_basic_text_end LF = true. Proof. vm_compute. reflexivity. Qed.
Lemma end_SP : is_basic_text_end SP = true. Proof. vm_compute. reflexivity. Qed.
Lemma clean_CGJ : clean CGJ = true. Proof. vm_compute. reflexivity. Qed.
Lemma clean_LF : clean LF = true. Proof. vm_compute. reflexivity. Qed.
Lemma clean_SP : clean SP = true. Proof. vm_compute. reflexivity. Qed.

Lemma is_basic_text_substr_clean : forall s, is_basic_text_substr s = true <-> Forall (fun c => clean c = true) s /\ is_nfc_stream_safe s = true.
Proof.
  intro s. unfold is_basic_text_substr. rewrite andb_true_iff. apply and_iff_compat_r.
  unfold categorize. induction s as [|c s IH]; cbn [map existsb]; [cbn; intuition|].
  assert (E : (categorize1 c =? SUB) || (categorize1 c =? ESC) = negb (clean c)).
  { unfold clean, check_ok, categorize1. destruct (check_basic_text_char c) eqn:K; [reflexivity|].
    assert (N : c <> SUB) by (intros ->; discriminate K). cbn. lia. }
  rewrite E, negb_orb, negb_involutive, andb_true_iff, IH. split; [intros [? ?]; auto|intro H; inversion H; auto].
Qed.
