(** The model's normalization is that of the Unicode Standard (SpecUnicode.v). *)
From Coq Require Import NArith List Bool Lia ZifyBool ZifyNat ZifyN PArith.
From Verif Require Import Base UcdTables Ucd Norm UcdFacts NormFacts SpecUnicode.
Import ListNotations.
Local Open Scope N_scope.
Arguments N.add : simpl never.
Arguments N.sub : simpl never.
Arguments N.mul : simpl never.
Arguments N.div : simpl never.
Arguments N.modulo : simpl never.
Arguments N.leb : simpl never.
Arguments N.ltb : simpl never.
Arguments N.eqb : simpl never.

(** * The data *)
Lemma tfind_tset : forall A p q (v : A) t, tfind p (tset q v t) = if Pos.eqb p q then Some v else tfind p t.
Proof.
  intros A p q v. revert p. induction q as [q IH|q IH|]; intros [p|p|] [|l o r]; cbn; try reflexivity; try (rewrite IH; reflexivity);
    try (now destruct p).
  - rewrite IH. destruct (Pos.eqb p q); [reflexivity|now destruct p].
  - rewrite IH. destruct (Pos.eqb p q); [reflexivity|now destruct p].
Qed.
Lemma of_list_value : forall A (l : list (N * A)) c, c <> 0 -> nfind c (of_list l) = value c l.
Proof.
  intros A l [|p] H; [congruence|]. induction l as [|[k v] l IH]; [now destruct p|].
  change (of_list ((k, v) :: l)) with (nset k v (of_list l)).
  assert (V : value (N.pos p) ((k, v) :: l) = if k =? N.pos p then Some v else value (N.pos p) l) by (unfold value; cbn; destruct (k =? N.pos p); reflexivity).
  rewrite V, <- IH. destruct k as [|q]; [reflexivity|]. cbn [nset nfind]. rewrite tfind_tset.
  change (N.pos q =? N.pos p) with (Pos.eqb q p). rewrite Pos.eqb_sym. reflexivity.
Qed.

Lemma trie_ccc_eq : trie_ccc = of_list raw_ccc.
Proof. vm_compute. reflexivity. Qed.
Lemma trie_canon_eq : trie_canon = of_list raw_canon.
Proof. vm_compute. reflexivity. Qed.
Lemma trie_compat_eq : trie_compat = of_list raw_compat.
Proof. vm_compute. reflexivity. Qed.
Lemma trie_qc_eq : trie_qc = of_list (map (fun c => (c, true)) raw_qc_no ++ map (fun c => (c, false)) raw_qc_maybe).
Proof. vm_compute. reflexivity. Qed.

Lemma class_ccc : forall c, class c = ccc c.
Proof.
  Transparent ccc. intros c. unfold class, ccc. destruct (N.eq_dec c 0) as [->|H].
  - vm_compute. reflexivity.
  - rewrite <- (of_list_value _ raw_ccc c H). rewrite <- trie_ccc_eq. reflexivity.
Qed.
Lemma canon_value : forall c, value c raw_canon = nfind c trie_canon.
Proof.
  intros c. destruct (N.eq_dec c 0) as [->|H].
  - vm_compute. reflexivity.
  - rewrite <- (of_list_value _ raw_canon c H). now rewrite trie_canon_eq.
Qed.
Lemma compat_value : forall c, value c raw_compat = nfind c trie_compat.
Proof.
  intros c. destruct (N.eq_dec c 0) as [->|H].
  - vm_compute. reflexivity.
  - rewrite <- (of_list_value _ raw_compat c H). now rewrite trie_compat_eq.
Qed.
Lemma value_flags : forall c l r, value c (map (fun c => (c, true)) l ++ r) = if existsb (fun x => x =? c) l then Some true else value c r.
Proof.
  intros c l r. induction l as [|x l IH]; [reflexivity|]. cbn [map app existsb].
  unfold value in *. cbn [find fst]. destruct (x =? c); [reflexivity|exact IH].
Qed.
Lemma value_maybe : forall c l, value c (map (fun c => (c, false)) l) <> Some true.
Proof.
  intros c l. induction l as [|x l IH]; [discriminate|]. unfold value in *. cbn [map find fst]. destruct (x =? c); [discriminate|exact IH].
Qed.
Lemma excluded_no : forall c, In c raw_qc_no <-> qc_nfc c = No.
Proof.
  Transparent qc_nfc. intros c. unfold qc_nfc.
  assert (E : nfind c trie_qc = value c (map (fun c => (c, true)) raw_qc_no ++ map (fun c => (c, false)) raw_qc_maybe)).
  { destruct (N.eq_dec c 0) as [->|H]; [vm_compute; reflexivity|].
    rewrite <- of_list_value by exact H. now rewrite trie_qc_eq. }
  rewrite E, value_flags. destruct (existsb (fun x => x =? c) raw_qc_no) eqn:X.
  - apply existsb_exists in X. destruct X as (x & X1 & X2). apply N.eqb_eq in X2. subst x. tauto.
  - split.
    + intro Y. exfalso. apply not_true_iff_false in X. apply X, existsb_exists. exists c. split; [exact Y|apply N.eqb_refl].
    + intro Y. pose proof (value_maybe c raw_qc_maybe) as Z. set (V := value c (map (fun c => (c, false)) raw_qc_maybe)) in *. clearbody V. destruct V as [[|]|]; [now destruct Z|discriminate|discriminate].
Qed.

Lemma syllable_b : forall c, syllable c <-> is_hangul_syllable c = true.
Proof. intros c. unfold syllable, is_hangul_syllable, S_BASE, S_COUNT. lia. Qed.
Lemma jamos_eq : forall c, jamos c = decompose_hangul c.
Proof. intros c. unfold jamos, decompose_hangul, L_BASE, V_BASE, T_BASE, S_BASE, N_COUNT, T_COUNT. cbn zeta. destruct (_ =? 0); reflexivity. Qed.

Lemma decomposes_cd : forall c d, decomposes c d <-> d = cd c.
Proof.
  Transparent cd. intros c d.
  assert (D : ~ syllable c -> cd c = match value c raw_canon with Some d => d | None => [c] end).
  { intros H. rewrite canon_value. unfold cd. destruct (c <=? 127) eqn:A.
    - rewrite canon_not_plain; [reflexivity|]. apply ascii_not_plain. lia.
    - rewrite syllable_b in H. apply not_true_iff_false in H. now rewrite H. }
  split.
  - intros H. destruct H as [c S|c d S V|c S V].
    + rewrite jamos_eq. symmetry. apply hangul_cd. now apply syllable_b.
    + now rewrite D, V.
    + now rewrite D, V.
  - intros ->. destruct (is_hangul_syllable c) eqn:S.
    + rewrite hangul_cd by exact S. rewrite <- jamos_eq. constructor. now apply syllable_b.
    + assert (S' : ~ syllable c) by (rewrite syllable_b; congruence). rewrite (D S').
      destruct (value c raw_canon) eqn:V; now constructor.
Qed.
Lemma decomposes_kd : forall c d, decomposes_k c d <-> d = kd c.
Proof.
  Transparent kd. intros c d.
  assert (K : kd c = match value c raw_compat with Some d => d | None => cd c end).
  { rewrite compat_value. unfold kd, cd. destruct (c <=? 127) eqn:A.
    - rewrite compat_not_plain; [reflexivity|]. apply ascii_not_plain. lia.
    - destruct (is_hangul_syllable c) eqn:S; [|reflexivity].
      rewrite compat_not_plain; [reflexivity|]. now apply hangul_not_plain. }
  rewrite K. split.
  - intros H. destruct H as [c d V|c d V E]; rewrite V; [reflexivity|now apply decomposes_cd].
  - intros ->. destruct (value c raw_compat) eqn:V; [now constructor|]. constructor 2; [exact V|now apply decomposes_cd].
Qed.
Global Opaque ccc cd kd qc_nfc.
Lemma Forall2_map : forall A B (R : A -> B -> Prop) f, (forall c d, R c d <-> d = f c) -> forall s ds, Forall2 R s ds <-> ds = map f s.
Proof.
  intros A B R f H s. induction s as [|c s IH]; intros ds; split; intro E.
  - now inversion E.
  - subst. constructor.
  - inversion E as [|? ? ? ? E1 E2]; subst. apply IH in E2. apply H in E1. cbn. congruence.
  - subst. cbn. constructor; [now apply H|now apply IH].
Qed.

(** * Canonical ordering *)
Inductive swaps : list N -> list N -> Prop :=
| sw_none : forall s, swaps s s
| sw_swap : forall a x y b t, reorderable x y -> swaps (a ++ y :: x :: b) t -> swaps (a ++ x :: y :: b) t.
Lemma swaps_trans : forall s t u, swaps s t -> swaps t u -> swaps s u.
Proof. intros s t u H. revert u. induction H as [s|a x y b t R H IH]; intros u U; [exact U|]. constructor; auto. Qed.
Lemma swaps_cons : forall x s t, swaps s t -> swaps (x :: s) (x :: t).
Proof. intros x s t H. induction H as [s|a y z b t R H IH]; [constructor|]. change (x :: a ++ y :: z :: b) with ((x :: a) ++ y :: z :: b). now constructor. Qed.
Lemma reorderable_ccc : forall x y, reorderable x y <-> ccc y <> 0 /\ ccc y < ccc x.
Proof. intros x y. unfold reorderable. rewrite !class_ccc. lia. Qed.
Lemma swaps_ins : forall x l, swaps (x :: l) (ins x l).
Proof.
  intros x l. induction l as [|y l IH]; [constructor|]. cbn [ins]. destruct (negb (ccc y =? 0) && (ccc y <? ccc x)) eqn:E; [|constructor].
  apply (sw_swap [] x y l); [apply reorderable_ccc; lia|]. cbn [app]. now apply swaps_cons.
Qed.
Lemma swaps_order : forall s, swaps s (order s).
Proof.
  induction s as [|x s IH]; [constructor|]. rewrite order_cons. apply (swaps_trans _ (x :: order s)); [now apply swaps_cons|apply swaps_ins].
Qed.
Lemma ordered_done : forall s, ordered s <-> forall a x y b, s = a ++ x :: y :: b -> ~ reorderable x y.
Proof.
  intros s. split.
  - intros H a x y b -> R. apply reorderable_ccc in R. apply ordered_app in H. destruct H as [_ [[H|H] _]]; lia.
  - induction s as [|x s IH]; intros H; [exact I|]. split.
    + destruct s as [|y s]; [exact I|]. specialize (H [] x y s eq_refl). rewrite reorderable_ccc in H. lia.
    + apply IH. intros a y z b ->. apply (H (x :: a) y z b eq_refl).
Qed.
Lemma reorder_order : forall s t, reorder s t <-> t = order s.
Proof.
  intros s t. split.
  - intros H. induction H as [s D|a x y b t R H IH].
    + symmetry. apply order_fix. now apply ordered_done.
    + rewrite IH. apply reorderable_ccc in R. apply order_congr; [reflexivity|]. rewrite !order_cons. symmetry. now apply ins_comm.
  - intros ->. pose proof (order_ordered s) as D. rewrite ordered_done in D. induction (swaps_order s) as [s|a x y b t R H IH].
    + now constructor.
    + constructor; [exact R|now apply IH].
Qed.
Lemma to_nfd_eq : forall s t, to_nfd s t <-> t = nfd s.
Proof.
  intros s t. unfold to_nfd, nfd. rewrite flat_map_concat_map. split.
  - intros (ds & D & R). apply (Forall2_map _ _ _ cd decomposes_cd) in D. subst ds. now apply reorder_order.
  - intros ->. exists (map cd s). split; [now apply (Forall2_map _ _ _ cd decomposes_cd)|now apply reorder_order].
Qed.
Lemma to_nfkd_eq : forall s t, to_nfkd s t <-> t = order (flat_map kd s).
Proof.
  intros s t. unfold to_nfkd. rewrite flat_map_concat_map. split.
  - intros (ds & D & R). apply (Forall2_map _ _ _ kd decomposes_kd) in D. subst ds. now apply reorder_order.
  - intros ->. exists (map kd s). split; [now apply (Forall2_map _ _ _ kd decomposes_kd)|now apply reorder_order].
Qed.
Lemma equivalent_eq : forall s t, equivalent s t <-> nfd s = nfd t.
Proof.
  intros s t. unfold equivalent. split.
  - intros (d & A & B). apply to_nfd_eq in A, B. congruence.
  - intros E. exists (nfd s). split; now apply to_nfd_eq.
Qed.

(** * Composition *)
Lemma primary_iff : forall p, primary_composite p <-> ~ full p /\ notno p.
Proof.
  intros p. unfold primary_composite, full, notno. rewrite excluded_no. split.
  - intros ((d & D & E) & X). apply decomposes_cd in D. subst d. now split.
  - intros (E & X). split; [|exact X]. exists (cd p). split; [now apply decomposes_cd|exact E].
Qed.
Lemma primary_starter : forall p, ~ full p -> notno p -> ccc p = 0.
Proof.
  intros p F X. destruct (N.eq_dec (ccc p) 0) as [E|E]; [exact E|]. destruct F. unfold full. now apply nonstarter_cd.
Qed.
Lemma nfd_single : forall p, ccc p = 0 -> notno p -> nfd [p] = cd p.
Proof.
  intros p E X. unfold nfd. cbn [flat_map]. rewrite app_nil_r.
  destruct (sdata_ex p E X) as (d0 & st & ns & k & [S1 S2 S3 S4 S5 _ _ _]). rewrite S1.
  change (d0 :: st ++ ns) with ((d0 :: st) ++ ns). rewrite order_starters_app by (now constructor). now rewrite order_fix.
Qed.
Lemma cd_chain : forall p, ccc p = 0 -> notno p -> exists d0 r, cd p = d0 :: r /\ chain d0 r = Some p.
Proof.
  intros p E X. destruct (starter_chain p E X) as (d0 & st & ns & D & _ & _ & _ & C & _). eauto.
Qed.
Lemma primary_compose : forall l c p, ccc l = 0 -> notno l -> full c -> ordered (cd l ++ [c]) ->
  (primary_composite p /\ equivalent [p] [l; c] <-> compose l c = Some p).
Proof.
  intros l c p Hl Nl Fc O. rewrite primary_iff, equivalent_eq.
  assert (D : nfd [l; c] = cd l ++ [c]).
  { unfold nfd. cbn [flat_map]. rewrite app_nil_r, Fc. now apply order_fix. }
  split.
  - intros ((Np & Xp) & E). pose proof (primary_starter p Np Xp) as Hp. rewrite D, (nfd_single p Hp Xp) in E.
    destruct (cd_chain l Hl Nl) as (d0 & r & L1 & L2). destruct (cd_chain p Hp Xp) as (d1 & r' & P1 & P2).
    rewrite L1, P1 in E. injection E as -> ->. rewrite chain_app, L2 in P2. cbn in P2. destruct (compose l c); [exact P2|discriminate].
  - intros E. destruct (compose_facts _ _ _ E) as (Hp & _ & Xp & _). pose proof (compose_cd _ _ _ E) as P. rewrite Fc in P.
    split; [split|].
    + intro F. rewrite F in P. apply (f_equal (@length N)) in P. rewrite app_length in P. pose proof (cd_nonnil l). destruct (cd l); [congruence|cbn in P; lia].
    + exact Xp.
    + now rewrite nfd_single, D.
Qed.

(** What composes is unique. *)
Lemma last_starter : forall a l b a' l' b', a ++ l :: b = a' ++ l' :: b' -> ccc l = 0 -> ccc l' = 0 ->
  allns b -> allns b' -> a = a' /\ l = l' /\ b = b'.
Proof.
  induction a as [|x a IH]; intros l b [|y a'] l' b' E L L' B B'; cbn in E.
  - injection E as -> ->. auto.
  - injection E as -> ->. exfalso. apply Forall_app in B. destruct B as [_ B]. apply Forall_inv in B. congruence.
  - injection E as <- <-. exfalso. apply Forall_app in B'. destruct B' as [_ B']. apply Forall_inv in B'. congruence.
  - injection E as -> E. destruct (IH _ _ _ _ _ E L L' B B') as (-> & -> & ->). auto.
Qed.
Lemma allns_class : forall b, Forall (fun x => class x <> 0) b <-> allns b.
Proof. intros b. unfold allns. split; apply Forall_weak; intro x; now rewrite class_ccc. Qed.
Lemma primary_unique : forall p q, primary_composite p -> primary_composite q -> nfd [p] = nfd [q] -> p = q.
Proof.
  intros p q P Q E. rewrite primary_iff in P, Q. destruct P as [P1 P2], Q as [Q1 Q2].
  pose proof (primary_starter _ P1 P2) as Hp. pose proof (primary_starter _ Q1 Q2) as Hq.
  rewrite !nfd_single in E by assumption.
  destruct (cd_chain p Hp P2) as (d0 & r & L1 & L2). destruct (cd_chain q Hq Q2) as (d1 & r' & M1 & M2).
  rewrite L1, M1 in E. injection E as -> ->. congruence.
Qed.
Lemma composes_unique : forall c u v w, composes c u v -> composes c u w -> v = w.
Proof.
  intros c u v w H K. destruct H as [a l b p L B U P E]. inversion K as [a' l' b' p' L' B' U' P' E' X]; subst.
  rewrite class_ccc in L, L'. rewrite allns_class in B, B'. apply last_starter in X; auto. destruct X as (-> & -> & ->).
  rewrite equivalent_eq in E, E'. now rewrite (primary_unique p p' P P') by congruence.
Qed.
Lemma composition_unique : forall u s t t', composition u s t -> composition u s t' -> t = t'.
Proof.
  intros u s t t' H. revert t'. induction H as [u|u c s v t C H IH|u c s t C H IH]; intros t' K; inversion K as [|? ? ? v' ? C' K'|? ? ? ? C' K']; subst; auto.
  - apply IH. now rewrite (composes_unique _ _ _ _ C C').
  - exfalso. exact (C' _ C).
  - exfalso. exact (C _ C').
Qed.

Lemma ordered_drop : forall a x b, ccc x <> 0 -> ordered (a ++ x :: b) -> ordered (a ++ b).
Proof.
  induction a as [|y a IH]; intros x b X O; cbn [app] in *; [exact (ordered_tl _ _ O)|].
  destruct O as [O1 O2]. split; [|exact (IH _ _ X O2)].
  destruct a as [|z a]; cbn [app] in *; [|exact O1]. destruct b as [|z b]; [exact I|]. destruct O2 as [O2 _]. lia.
Qed.
Lemma not_blocked : forall b c, ~ blocked b c <-> Forall (fun x => ccc x <> 0 /\ ccc x < ccc c) b.
Proof.
  intros b c. unfold blocked. rewrite Forall_forall. split.
  - intros H x X. destruct (N.eq_dec (ccc x) 0) as [E|E]; [|split; [exact E|]].
    + destruct H. exists x. rewrite class_ccc. auto.
    + destruct (N.lt_ge_cases (ccc x) (ccc c)) as [G|G]; [exact G|]. destruct H. exists x. rewrite !class_ccc. auto.
  - intros H (x & X & Y). rewrite !class_ccc in Y. specialize (H x X). lia.
Qed.

(** What the model knows about the characters since the last starter. *)
Definition last_class (l : option N) (buf : list N) : Prop :=
  match l with
  | None => buf = []
  | Some lc => (exists b x, buf = b ++ [x] /\ ccc x = lc) /\ Forall (fun y => ccc y <> 0 /\ ccc y <= lc) buf
  end.
Lemma last_class_ns : forall l buf, last_class l buf -> allns buf.
Proof. intros [lc|] buf H; [eapply Forall_weak; [|exact (proj2 H)]; cbn; tauto|]. cbn in H. subst. constructor. Qed.
Lemma composes_iff : forall c a k buf v, ccc k = 0 -> notno k -> full c -> ordered (cd k ++ [c]) -> allns buf ->
  composes c (a ++ k :: buf) v <-> Forall (fun x => ccc x <> 0 /\ ccc x < ccc c) buf /\ exists p, compose k c = Some p /\ v = a ++ p :: buf.
Proof.
  intros c a k buf v K X F O B. split.
  - intros H. inversion H as [a' l' b' p' L' B' U' P' E' Y]; subst. rewrite class_ccc in L'. rewrite allns_class in B'.
    apply last_starter in Y; auto. destruct Y as (-> & -> & ->). split; [now apply not_blocked|]. exists p'. split; [|reflexivity].
    now apply primary_compose.
  - intros (U & p & C & ->). apply (primary_compose k c p K X F O) in C. destruct C as [P E]. constructor; auto.
    + now rewrite class_ccc.
    + now apply allns_class.
    + now apply not_blocked.
Qed.

Lemma rc_composition : forall s k buf l a, ordered (cd k ++ s) -> Forall full s -> ccc k = 0 -> notno k -> last_class l buf ->
  (match l with None => True | Some lc => ge_hd lc s end) -> composition (a ++ k :: buf) s (a ++ rc k buf l s).
Proof.
  induction s as [|ch t IH]; intros k buf l a O F K X B G; cbn [rc]; [constructor|].
  pose proof (Forall_inv F) as Fc. pose proof (Forall_inv_tail F) as Ft.
  assert (O1 : ordered (cd k ++ [ch])).
  { change (cd k ++ ch :: t) with (cd k ++ [ch] ++ t) in O. rewrite app_assoc in O. now apply ordered_app in O. }
  assert (Ot : ordered (ch :: t)) by (apply ordered_app in O; apply O).
  pose proof (ge_hd_ordered _ _ Ot) as Gt.
  pose proof (fun v => composes_iff ch a k buf v K X Fc O1 (last_class_ns _ _ B)) as C.
  assert (Y : forall r l', compose k ch = Some r -> Forall (fun x => ccc x <> 0 /\ ccc x < ccc ch) buf -> last_class l' buf ->
    (match l' with None => True | Some lc => ge_hd lc t end) -> composition (a ++ k :: buf) (ch :: t) (a ++ rc r buf l' t)).
  { intros r l' E U B' G'. destruct (compose_facts _ _ _ E) as (Hr & _ & Xr & _). apply (comp_yes _ _ _ (a ++ r :: buf)).
    - apply C. split; [exact U|]. now exists r.
    - apply IH; auto. rewrite (compose_cd _ _ _ E), Fc, <- app_assoc. exact O. }
  assert (Z : (forall v, ~ composes ch (a ++ k :: buf) v) -> ccc ch <> 0 -> Forall (fun y => ccc y <= ccc ch) buf ->
    composition (a ++ k :: buf) (ch :: t) (a ++ rc k (buf ++ [ch]) (Some (ccc ch)) t)).
  { intros D E LE. apply comp_no; [exact D|]. rewrite <- app_assoc. cbn [app]. apply IH; auto.
    - now apply (ordered_drop _ ch).
    - split; [now exists buf, ch|]. apply Forall_app. split; [|constructor; [lia|constructor]].
      apply Forall_forall. intros y Hy. split; [exact (proj1 (Forall_forall _ _) (last_class_ns _ _ B) y Hy)|exact (proj1 (Forall_forall _ _) LE y Hy)]. }
  assert (W : (forall v, ~ composes ch (a ++ k :: buf) v) -> ccc ch = 0 ->
    composition (a ++ k :: buf) (ch :: t) ((a ++ k :: buf) ++ rc ch [] None t)).
  { intros D E. apply comp_no; [exact D|]. apply IH; auto.
    - rewrite Fc. exact Ot.
    - now apply full_notno.
    - reflexivity. }
  destruct l as [lc|].
  - destruct B as [(b & x & BE & BX) BF]. destruct (ccc ch <=? lc) eqn:E1.
    + assert (D : forall v, ~ composes ch (a ++ k :: buf) v).
      { intros v V. apply C in V. destruct V as [V _]. rewrite BE in V. apply Forall_app in V. destruct V as [_ V]. apply Forall_inv in V. lia. }
      destruct (ccc ch =? 0) eqn:E2.
      * specialize (W D ltac:(lia)). rewrite <- app_assoc in W. exact W.
      * apply Z; [exact D|lia|]. eapply Forall_weak; [|exact BF]. cbn. intros y Hy. cbn in G. lia.
    + destruct (compose k ch) as [r|] eqn:E2.
      * apply Y; auto.
        -- eapply Forall_weak; [|exact BF]. cbn. intros. lia.
        -- split; [now exists b, x|exact BF].
        -- destruct t as [|y t]; [exact I|]. cbn in *. lia.
      * apply Z; [|lia|eapply Forall_weak; [|exact BF]; cbn; intros; lia].
        intros v V. apply C in V. destruct V as [_ (p & P & _)]. congruence.
  - cbn in B. subst buf. destruct (compose k ch) as [r|] eqn:E2.
    + apply Y; auto. reflexivity.
    + assert (D : forall v, ~ composes ch (a ++ k :: []) v) by (intros v V; apply C in V; destruct V as [_ (p & P & _)]; congruence).
      destruct (ccc ch =? 0) eqn:E3.
      * specialize (W D ltac:(lia)). rewrite <- app_assoc in W. exact W.
      * apply Z; [exact D|lia|constructor].
Qed.
Lemma recomp_composition : forall s a, ordered s -> Forall full s -> allns a -> composition a s (a ++ recomp s).
Proof.
  induction s as [|c t IH]; intros a O F A; cbn [recomp]; [rewrite app_nil_r; constructor|].
  pose proof (Forall_inv F) as Fc. pose proof (Forall_inv_tail F) as Ft.
  apply comp_no.
  - intros v V. destruct V as [a' l b p L _ _ _ _]. apply Forall_app in A. destruct A as [_ A]. apply Forall_inv in A. rewrite class_ccc in L. congruence.
  - destruct (ccc c =? 0) eqn:E.
    + apply rc_composition; auto.
      * rewrite Fc. exact O.
      * lia.
      * now apply full_notno.
      * reflexivity.
    + change (c :: recomp t) with ([c] ++ recomp t). rewrite app_assoc. apply IH; auto.
      * exact (ordered_tl _ _ O).
      * apply Forall_app. split; [exact A|]. constructor; [lia|constructor].
Qed.
Lemma to_nfc_eq : forall s t, to_nfc s t <-> t = nfc s.
Proof.
  intros s t. unfold to_nfc. pose proof (recomp_composition (nfd s) [] (nfd_ordered s) (nfd_full s) (Forall_nil _)) as R. split.
  - intros (d & D & C). apply to_nfd_eq in D. subst d. exact (composition_unique _ _ _ _ C R).
  - intros ->. exists (nfd s). split; [now apply to_nfd_eq|exact R].
Qed.

(** * Stream-Safe *)
From Verif Require Import TextUtils SpecText TextFacts.
Lemma mark_ins : forall x l, map nonstarter (ins x l) = nonstarter x :: map nonstarter l.
Proof.
  intros x l. induction l as [|y t IH]; [reflexivity|]. cbn [ins].
  destruct (negb (ccc y =? 0) && (ccc y <? ccc x)) eqn:E; [|reflexivity]. cbn [map]. rewrite IH. unfold nonstarter. do 2 f_equal; lia.
Qed.
Lemma mark_order : forall l, map nonstarter (order l) = map nonstarter l.
Proof. intros l. rewrite order_fold. induction l as [|x l IH]; [reflexivity|]. cbn. now rewrite mark_ins, IH. Qed.
Definition short_runs (l : list N) : Prop := forall a run b, l = a ++ run ++ b -> allns run -> (length run <= 30)%nat.
Lemma short_runs_marks : forall l l', map nonstarter l = map nonstarter l' -> short_runs l -> short_runs l'.
Proof.
  intros l l' M H a run b -> A. rewrite !map_app in M.
  assert (E : exists a' r' b', l = a' ++ r' ++ b' /\ map nonstarter r' = map nonstarter run).
  { apply map_eq_app in M. destruct M as (a' & m & -> & _ & M). apply map_eq_app in M. destruct M as (r' & b' & -> & M & _). eauto. }
  destruct E as (a' & r' & b' & -> & E). rewrite <- (map_length nonstarter run), <- E, map_length. apply (H a' r' b' eq_refl).
  assert (T : Forall (fun b => b = true) (map nonstarter r')).
  { rewrite E. apply Forall_forall. intros y Y. apply in_map_iff in Y. destruct Y as (x & <- & X). unfold nonstarter.
    pose proof (proj1 (Forall_forall _ _) A x X) as Q. cbn in Q. lia. }
  apply Forall_forall. intros x X. pose proof (proj1 (Forall_forall _ _) T _ (in_map nonstarter _ _ X)) as Q. cbn in Q. unfold nonstarter in Q. lia.
Qed.
Lemma format_text : forall s, stream_safe_format s <-> stream_safe_text s.
Proof.
  intros s. transitivity (short_runs (order (flat_map kd s))).
  - unfold stream_safe_format, short_runs. split.
    + intros H a run b E A. apply (H _ a run b (proj2 (to_nfkd_eq _ _) eq_refl) E). now apply allns_class.
    + intros H d a run b D E A. apply to_nfkd_eq in D. subst d. apply (H a run b E). now apply allns_class.
  - split; apply short_runs_marks; [|symmetry]; apply mark_order.
Qed.
Lemma format_eq : forall s, stream_safe_format s <-> stream_safe s = s.
Proof. intros s. now rewrite format_text, stream_safe_spec. Qed.
Lemma format_snoc : forall u c, ss_ok 0 u = true -> stream_safe_format (u ++ [c]) <-> Nat.leb (run_end 0 (flat_map pat u) + cl_leading c) 30 = true.
Proof.
  intros u c U. rewrite format_eq, ss_ok_iff, ss_ok_runs, flat_map_app, runs_ok_app by lia. rewrite ss_ok_runs in U by lia. rewrite U.
  cbn [andb flat_map]. rewrite app_nil_r. rewrite runs_ok_pat by (apply run_end_le; [exact U|lia]). reflexivity.
Qed.
Lemma ss_snoc : forall u c, ss_ok 0 u = true -> Nat.leb (run_end 0 (flat_map pat u) + cl_leading c) 30 = true -> ss_ok 0 (u ++ [c]) = true.
Proof. intros u c U H. apply ss_ok_iff, format_eq. now apply format_snoc. Qed.
Lemma make_safe_go : forall s u n, ss_ok 0 u = true -> n = run_end 0 (flat_map pat u) -> make_safe u s (u ++ stream_safe_go n s).
Proof.
  induction s as [|c t IH]; intros u n U E; cbn [stream_safe_go]; [rewrite app_nil_r; constructor|].
  unfold MAX_NONSTARTERS. destruct (Nat.ltb 30 (n + cl_leading c)) eqn:L.
  - apply PeanoNat.Nat.ltb_lt in L. apply safe_no.
    + intro F. apply (format_snoc u c U) in F. rewrite <- E in F. apply PeanoNat.Nat.leb_le in F. lia.
    + assert (G : run_end 0 (flat_map pat (u ++ [CGJ])) = 0%nat) by (rewrite flat_map_app, run_end_app; cbn [flat_map]; rewrite pat_CGJ; reflexivity).
      assert (UG : ss_ok 0 (u ++ [CGJ]) = true).
      { rewrite ss_ok_runs, flat_map_app, runs_ok_app by lia. rewrite ss_ok_runs in U by lia. rewrite U. cbn [flat_map]. rewrite pat_CGJ. reflexivity. }
      change (u ++ CGJ :: c :: stream_safe_go (count_next 0 c) t) with (u ++ [CGJ; c] ++ stream_safe_go (count_next 0 c) t). rewrite app_assoc. apply IH.
      * change [CGJ; c] with ([CGJ] ++ [c]). rewrite app_assoc. apply ss_snoc; [exact UG|]. rewrite G. apply PeanoNat.Nat.leb_le. pose proof (cl_leading_le c). lia.
      * rewrite count_next_run. change [CGJ; c] with ([CGJ] ++ [c]). rewrite app_assoc, flat_map_app, run_end_app, G. cbn [flat_map]. now rewrite app_nil_r.
  - apply PeanoNat.Nat.ltb_ge in L. assert (F : Nat.leb (run_end 0 (flat_map pat u) + cl_leading c) 30 = true) by (apply PeanoNat.Nat.leb_le; lia).
    apply safe_yes; [now apply format_snoc|].
    change (u ++ c :: stream_safe_go (count_next n c) t) with (u ++ [c] ++ stream_safe_go (count_next n c) t). rewrite app_assoc. apply IH.
    + now apply ss_snoc.
    + rewrite count_next_run, flat_map_app, run_end_app, <- E. cbn [flat_map]. now rewrite app_nil_r.
Qed.
Lemma make_safe_unique : forall u s t t', make_safe u s t -> make_safe u s t' -> t = t'.
Proof.
  intros u s t t' H. revert t'. induction H as [u|u c s t F H IH|u c s t F H IH]; intros t' K; inversion K; subst; auto; contradiction.
Qed.
Lemma make_safe_eq : forall s t, make_safe [] s t <-> t = stream_safe s.
Proof.
  intros s t. pose proof (make_safe_go s [] 0 eq_refl eq_refl) as M. split.
  - intros H. exact (make_safe_unique _ _ _ _ H M).
  - intros ->. exact M.
Qed.

(** * Basic Text *)
Lemma substr_unicode : forall s, is_basic_text_substr s = true <-> to_nfc s s /\ stream_safe_format s /\ Forall allowed s.
Proof.
  intros s. rewrite substr_spec. unfold substring_ok, nfc_text. rewrite to_nfc_eq, format_text. intuition.
Qed.
Lemma equivalent_nfc : forall s t, equivalent s t <-> nfc s = nfc t.
Proof.
  intros s t. rewrite equivalent_eq. split.
  - unfold nfc. intros ->. reflexivity.
  - intros E. now rewrite <- (nfd_nfc s), E, nfd_nfc.
Qed.
Lemma pipeline_unicode : forall s t, t = pipeline s <-> exists u, make_safe [] (cjk_compat_variants (isolate_unassigned s)) u /\ to_nfc u t.
Proof.
  intros s t. split.
  - intros ->. eexists. split; [now apply make_safe_eq|now apply to_nfc_eq].
  - intros (u & U & T). apply make_safe_eq in U. apply to_nfc_eq in T. subst. reflexivity.
Qed.
