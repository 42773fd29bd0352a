(** Theory of canonical ordering, recomposition and stream-safe counting. *)
From Coq Require Import NArith ZArith List Bool Lia Arith.
From Coq Require Import ZifyBool ZifyNat ZifyN.
From Verif Require Import Base Ucd Norm UcdFacts.
Import ListNotations.
Local Open Scope N_scope.
Arguments N.add : simpl never.
Arguments N.leb : simpl never.
Arguments N.ltb : simpl never.
Arguments N.eqb : simpl never.

(** * Canonical ordering *)
Definition starter (c : N) : Prop := ccc c = 0.
Definition allns (l : list N) : Prop := Forall (fun x => ccc x <> 0) l.
Definition hd_starter (l : list N) : Prop := match l with [] => True | c :: _ => ccc c = 0 end.

Lemma ins_starter : forall c l, ccc c = 0 -> ins c l = c :: l.
Proof. intros c [|y t] H; cbn; [reflexivity|]. rewrite H. assert (ccc y <? 0 = false) as -> by lia. now rewrite andb_false_r. Qed.

Lemma ins_app_starter : forall x l c r, ccc c = 0 -> ins x (l ++ c :: r) = ins x l ++ c :: r.
Proof.
  intros x l c r H. induction l as [|y t IH]; cbn.
  - rewrite H. reflexivity.
  - destruct (negb (ccc y =? 0) && (ccc y <? ccc x)); cbn; [now rewrite IH|reflexivity].
Qed.

Lemma fold_ins_app_starter : forall a l c r, ccc c = 0 ->
  fold_right ins (l ++ c :: r) a = fold_right ins l a ++ c :: r.
Proof. intros a l c r H. induction a as [|x a IH]; cbn; [reflexivity|]. now rewrite IH, ins_app_starter. Qed.

Lemma order_go_fold : forall s p, order_go p s = fold_right ins (fold_right ins [] s) p.
Proof.
  induction s as [|c s IH]; intro p; cbn; [reflexivity|].
  destruct (ccc c =? 0) eqn:E.
  - rewrite IH. cbn. rewrite (ins_starter c) by lia.
    assert (H : ccc c = 0) by lia.
    pose proof (fold_ins_app_starter p [] c (fold_right ins [] s) H) as Q. cbn in Q.
    symmetry. exact Q.
  - rewrite IH. rewrite fold_right_app. reflexivity.
Qed.

Lemma order_fold : forall s, order s = fold_right ins [] s.
Proof. intro s. unfold order. now rewrite order_go_fold. Qed.

Lemma order_cons : forall x s, order (x :: s) = ins x (order s).
Proof. intros. now rewrite !order_fold. Qed.

Lemma order_app_fold : forall a b, order (a ++ b) = fold_right ins (order b) a.
Proof. intros. rewrite !order_fold. now rewrite fold_right_app. Qed.

Lemma order_split : forall a c b, ccc c = 0 -> order (a ++ c :: b) = order a ++ c :: order b.
Proof.
  intros a c b H. rewrite order_app_fold, order_cons, (ins_starter c) by exact H.
  rewrite (order_fold a). exact (fold_ins_app_starter a [] c _ H).
Qed.

Lemma ins_comm : forall x y l, ccc y <> 0 -> ccc y < ccc x -> ins x (ins y l) = ins y (ins x l).
Proof.
  intros x y l Hy Hxy. induction l as [|z t IH].
  - cbn. assert (ccc y =? 0 = false) as -> by lia. assert (ccc y <? ccc x = true) as -> by lia.
    assert (ccc x <? ccc y = false) as -> by lia. rewrite andb_false_r. reflexivity.
  - cbn [ins]. destruct (negb (ccc z =? 0) && (ccc z <? ccc y)) eqn:E1.
    + assert (E2 : negb (ccc z =? 0) && (ccc z <? ccc x) = true) by lia.
      rewrite E2. cbn [ins]. rewrite E1, E2. now rewrite IH.
    + cbn [ins]. assert (E3 : negb (ccc y =? 0) && (ccc y <? ccc x) = true) by lia. rewrite E3.
      destruct (negb (ccc z =? 0) && (ccc z <? ccc x)) eqn:E2; cbn [ins].
      * rewrite E1, ?E2. reflexivity.
      * rewrite ?E2. assert (negb (ccc x =? 0) && (ccc x <? ccc y) = false) as -> by lia. reflexivity.
Qed.

Lemma fold_ins_ins : forall L x l, fold_right ins L (ins x l) = ins x (fold_right ins L l).
Proof.
  intros L x l. induction l as [|y t IH]; cbn; [reflexivity|].
  destruct (negb (ccc y =? 0) && (ccc y <? ccc x)) eqn:E; cbn; [|reflexivity].
  rewrite IH. symmetry. apply ins_comm; lia.
Qed.

Lemma order_order_l : forall a b, order (order a ++ b) = order (a ++ b).
Proof.
  intros a b. rewrite !order_app_fold. rewrite (order_fold a). induction a as [|x a IH]; cbn; [reflexivity|].
  now rewrite fold_ins_ins, IH.
Qed.

Fixpoint ordered (l : list N) : Prop :=
  match l with
  | [] => True
  | x :: t => match t with [] => True | y :: _ => ccc y = 0 \/ ccc x <= ccc y end /\ ordered t
  end.

Lemma ordered_tl : forall x l, ordered (x :: l) -> ordered l.
Proof. intros x l H. apply H. Qed.

Lemma ins_ordered : forall x l, ordered l -> ordered (ins x l).
Proof.
  intros x l. induction l as [|y t IH]; intro H; [cbn; auto|].
  cbn [ins]. destruct (negb (ccc y =? 0) && (ccc y <? ccc x)) eqn:E.
  - specialize (IH (ordered_tl _ _ H)). split; [|exact IH].
    destruct t as [|z t]; cbn [ins]; [right; lia|].
    destruct (negb (ccc z =? 0) && (ccc z <? ccc x)); [exact (proj1 H)|right; lia].
  - split; [|exact H]. lia.
Qed.

Lemma order_ordered : forall l, ordered (order l).
Proof. intro l. rewrite order_fold. induction l; cbn; [exact I|]. now apply ins_ordered. Qed.

Lemma ins_fix : forall x l, ordered (x :: l) -> ins x l = x :: l.
Proof.
  intros x [|y t] H; cbn; [reflexivity|]. destruct H as [H _].
  assert (negb (ccc y =? 0) && (ccc y <? ccc x) = false) as -> by lia. reflexivity.
Qed.

Lemma order_fix : forall l, ordered l -> order l = l.
Proof.
  intros l H. rewrite order_fold. induction l as [|x l IH]; cbn; [reflexivity|].
  rewrite IH by exact (ordered_tl _ _ H). now apply ins_fix.
Qed.

Lemma order_idem : forall l, order (order l) = order l.
Proof. intro l. apply order_fix, order_ordered. Qed.

Lemma order_order_r : forall a b, order (a ++ order b) = order (a ++ b).
Proof. intros a b. rewrite !order_app_fold. now rewrite order_idem. Qed.

Lemma order_congr : forall a a' b b', order a = order a' -> order b = order b' -> order (a ++ b) = order (a' ++ b').
Proof.
  intros a a' b b' H1 H2. rewrite <- order_order_l, <- order_order_r, H1, H2, order_order_r, order_order_l. reflexivity.
Qed.

Lemma in_ins : forall x l y, In y (ins x l) <-> y = x \/ In y l.
Proof.
  intros x l y. induction l as [|z t IH]; cbn; [intuition|].
  destruct (negb (ccc z =? 0) && (ccc z <? ccc x)); cbn; [rewrite IH|]; intuition.
Qed.
Lemma in_order : forall l y, In y (order l) <-> In y l.
Proof.
  intros l y. rewrite order_fold. induction l as [|x l IH]; cbn; [tauto|].
  rewrite in_ins, IH. intuition.
Qed.
Lemma ins_length : forall x l, length (ins x l) = S (length l).
Proof. intros x l. induction l as [|y t IH]; cbn; [reflexivity|]. destruct (_ && _); cbn; auto. Qed.
Lemma order_length : forall l, length (order l) = length l.
Proof. intro l. rewrite order_fold. induction l as [|x l IH]; cbn; [reflexivity|]. now rewrite ins_length, IH. Qed.

(** [x] commutes with smaller classes in front of it. *)
Lemma order_move : forall x b t, ccc x <> 0 -> Forall (fun y => ccc y <> 0 /\ ccc y < ccc x) b ->
  order (b ++ x :: t) = order (x :: b ++ t).
Proof.
  intros x b t Hx Hb. induction Hb as [|y b [H1 H2] Hb IH]; [reflexivity|].
  cbn [app]. rewrite !order_cons. rewrite IH, order_cons. symmetry. now apply ins_comm.
Qed.

Lemma order_app_hd_starter : forall a b, hd_starter b -> order (a ++ b) = order a ++ order b.
Proof.
  intros a [|c b] H.
  - rewrite !app_nil_r. reflexivity.
  - cbn in H. rewrite order_split by exact H. rewrite order_cons, ins_starter by exact H. reflexivity.
Qed.

Lemma order_hd_starter : forall b, hd_starter b -> hd_starter (order b).
Proof. intros [|c b] H; [exact I|]. cbn in H. rewrite order_cons, ins_starter by exact H. exact H. Qed.

(** * Recomposition preserves canonical equivalence *)
Definition full (x : N) : Prop := cd x = [x].

Definition ge_hd (lc : N) (s : list N) : Prop := match s with [] => True | c :: _ => ccc c = 0 \/ lc <= ccc c end.

Definition rc_inv (buf : list N) (l : option N) (s : list N) : Prop :=
  match l with
  | None => buf = []
  | Some lc => Forall (fun y => ccc y <> 0 /\ ccc y <= lc) buf /\ ge_hd lc s
  end.

Lemma flat_cd_full : forall l, Forall full l -> flat_map cd l = l.
Proof. intros l H. induction H as [|x l Hx H IH]; cbn; [reflexivity|]. rewrite Hx, IH. reflexivity. Qed.

Lemma ge_hd_ordered : forall x t, ordered (x :: t) -> ge_hd (ccc x) t.
Proof. intros x [|y t] H; [exact I|]. exact (proj1 H). Qed.

Lemma Forall_weak : forall (P Q : N -> Prop) l, (forall x, P x -> Q x) -> Forall P l -> Forall Q l.
Proof. intros P Q l H F. induction F; constructor; auto. Qed.

Lemma rc_nfd : forall s k buf l, ordered s -> Forall full s -> Forall full buf -> ccc k = 0 -> rc_inv buf l s ->
  order (flat_map cd (rc k buf l s)) = order (cd k ++ buf ++ s).
Proof.
  induction s as [|ch t IH]; intros k buf l HO HF HB HK HI; cbn [rc].
  - cbn [flat_map]. rewrite flat_cd_full by exact HB. now rewrite app_nil_r.
  - inversion HF as [|? ? Hch HF']; subst.
    pose proof (ordered_tl _ _ HO) as HO'.
    pose proof (ge_hd_ordered _ _ HO) as HG.
    destruct l as [lc|].
    + destruct HI as [HI1 HI2]. cbn in HI2.
      destruct (ccc ch <=? lc) eqn:E1.
      * destruct (ccc ch =? 0) eqn:E2.
        -- cbn [flat_map]. rewrite flat_map_app, (flat_cd_full buf HB).
           rewrite (app_assoc _ buf (flat_map cd _)).
           etransitivity; [apply (order_congr _ (cd k ++ buf) _ (ch :: t)); [reflexivity|]|].
           ++ rewrite IH; auto; [|lia|reflexivity]. rewrite Hch. reflexivity.
           ++ now rewrite <- app_assoc.
        -- rewrite IH; auto.
           ++ rewrite <- app_assoc. reflexivity.
           ++ apply Forall_app. split; auto.
           ++ cbn. split; [|exact HG]. apply Forall_app. split.
              ** eapply Forall_weak; [|exact HI1]. cbn. intros x [? ?]. split; [assumption|]. lia.
              ** constructor; [|constructor]. lia.
      * destruct (compose k ch) as [r|] eqn:E2.
        -- pose proof (compose_facts _ _ _ E2) as (R1 & _).
           rewrite IH; auto.
           ++ rewrite (compose_cd _ _ _ E2), Hch. rewrite <- !app_assoc.
              apply order_congr; [reflexivity|]. cbn [app]. symmetry. apply order_move; [lia|].
              eapply Forall_weak; [|exact HI1]. cbn. intros x [? ?]. split; [assumption|]. lia.
           ++ cbn. split; [exact HI1|]. destruct t as [|y t]; cbn in *; [exact I|]. lia.
        -- rewrite IH; auto.
           ++ rewrite <- app_assoc. reflexivity.
           ++ apply Forall_app. split; auto.
           ++ cbn. split; [|exact HG]. apply Forall_app. split.
              ** eapply Forall_weak; [|exact HI1]. cbn. intros x [? ?]. split; [assumption|]. lia.
              ** constructor; [|constructor]. lia.
    + cbn in HI. subst buf. destruct (compose k ch) as [r|] eqn:E2.
      * pose proof (compose_facts _ _ _ E2) as (R1 & _).
        rewrite IH; auto; [|reflexivity].
        rewrite (compose_cd _ _ _ E2), Hch. now rewrite <- !app_assoc.
      * destruct (ccc ch =? 0) eqn:E3.
        -- cbn [flat_map].
           etransitivity; [apply (order_congr _ (cd k) _ (ch :: t)); [reflexivity|]|reflexivity].
           rewrite IH; auto; [|lia|reflexivity]. rewrite Hch. reflexivity.
        -- rewrite IH; auto.
           ++ apply Forall_app. split; auto.
           ++ cbn. split; [|exact HG]. constructor; [|constructor]. lia.
Qed.

Lemma recomp_nfd : forall s, ordered s -> Forall full s -> order (flat_map cd (recomp s)) = order s.
Proof.
  induction s as [|c t IH]; intros HO HF; cbn [recomp]; [reflexivity|].
  inversion HF as [|? ? Hc HF']; subst.
  destruct (ccc c =? 0) eqn:E.
  - rewrite rc_nfd; auto; [|exact (ordered_tl _ _ HO)|lia|reflexivity]. rewrite Hc. reflexivity.
  - cbn [flat_map]. rewrite Hc. cbn [app].
    rewrite (order_cons c), IH by (auto; exact (ordered_tl _ _ HO)). now rewrite order_cons.
Qed.

Lemma nfd_full : forall s, Forall full (nfd s).
Proof.
  intro s. apply Forall_forall. intros x H. unfold nfd in H. rewrite in_order in H.
  apply in_flat_map in H. destruct H as (c & _ & H). exact (cd_full _ _ H).
Qed.
Lemma nfd_ordered : forall s, ordered (nfd s).
Proof. intro s. apply order_ordered. Qed.

Theorem nfd_nfc : forall s, nfd (nfc s) = nfd s.
Proof.
  intro s. unfold nfc. unfold nfd at 1.
  rewrite recomp_nfd by (apply nfd_ordered || apply nfd_full). apply order_fix, nfd_ordered.
Qed.

Theorem nfc_idem : forall s, nfc (nfc s) = nfc s.
Proof. intro s. unfold nfc at 1. rewrite nfd_nfc. reflexivity. Qed.

(** * Shape of the output *)
Definition notno (c : N) : Prop := qc_nfc c <> No.

Lemma full_notno : forall x, full x -> notno x.
Proof. intros x H E. exact (qc_no_decomposes _ E H). Qed.

Lemma rc_notno : forall s k buf l, Forall notno s -> Forall notno buf -> notno k -> Forall notno (rc k buf l s).
Proof.
  induction s as [|ch t IH]; intros k buf l HS HB HK; cbn [rc]; [now constructor|].
  inversion HS; subst.
  assert (HB' : Forall notno (buf ++ [ch])) by (apply Forall_app; auto).
  destruct l as [lc|].
  - destruct (ccc ch <=? lc).
    + destruct (ccc ch =? 0); [|now apply IH].
      constructor; [assumption|]. apply Forall_app. split; [assumption|]. now apply IH.
    + destruct (compose k ch) as [r|] eqn:E; [|now apply IH].
      apply IH; auto. apply compose_facts in E. apply E.
  - destruct (compose k ch) as [r|] eqn:E.
    + apply IH; auto. apply compose_facts in E. apply E.
    + destruct (ccc ch =? 0); [constructor; [assumption|]|]; now apply IH.
Qed.

Lemma recomp_notno : forall s, Forall notno s -> Forall notno (recomp s).
Proof.
  induction 1 as [|c t Hc HF IH]; cbn [recomp]; [constructor|].
  destruct (ccc c =? 0); [apply rc_notno; auto|constructor; auto].
Qed.

Lemma nfc_notno : forall s, Forall notno (nfc s).
Proof.
  intro s. apply recomp_notno. eapply Forall_weak; [|apply nfd_full]. apply full_notno.
Qed.

(** ordered, with a non-decreasing run in front *)
Lemma ordered_app_starter : forall a b, ordered a -> ordered b -> hd_starter b -> ordered (a ++ b).
Proof.
  induction a as [|x a IH]; intros b HA HB HS; [exact HB|].
  cbn [app]. split; [|apply IH; auto; exact (ordered_tl _ _ HA)].
  destruct a as [|y a]; cbn [app]; [|exact (proj1 HA)].
  destruct b as [|z b]; [exact I|]. left. exact HS.
Qed.

Lemma ordered_snoc : forall a x, ordered a -> Forall (fun y => ccc y <= ccc x) a -> ordered (a ++ [x]).
Proof.
  induction a as [|y a IH]; intros x HA HF; [cbn; auto|].
  inversion HF; subst. cbn [app]. split; [|apply IH; auto; exact (ordered_tl _ _ HA)].
  destruct a as [|z a]; cbn [app]; [right; assumption|exact (proj1 HA)].
Qed.

Lemma ordered_starter_cons : forall k l, ccc k = 0 -> ordered l -> ordered (k :: l).
Proof. intros k l H HO. split; [|exact HO]. destruct l; [exact I|]. right. lia. Qed.

Lemma rc_hd : forall s k buf l, ccc k = 0 -> hd_starter (rc k buf l s).
Proof.
  induction s as [|ch t IH]; intros k buf l HK; cbn [rc]; [exact HK|].
  destruct l as [lc|].
  - destruct (ccc ch <=? lc).
    + destruct (ccc ch =? 0); [exact HK|now apply IH].
    + destruct (compose k ch) as [r|] eqn:E; apply IH; auto. now apply compose_facts in E.
  - destruct (compose k ch) as [r|] eqn:E.
    + apply IH; auto. now apply compose_facts in E.
    + destruct (ccc ch =? 0); [exact HK|now apply IH].
Qed.

Lemma rc_ordered : forall s k buf l, ordered s -> ordered buf -> ccc k = 0 -> rc_inv buf l s -> ordered (rc k buf l s).
Proof.
  induction s as [|ch t IH]; intros k buf l HO HB HK HI; cbn [rc].
  - now apply ordered_starter_cons.
  - pose proof (ordered_tl _ _ HO) as HO'.
    pose proof (ge_hd_ordered _ _ HO) as HG.
    destruct l as [lc|].
    + destruct HI as [HI1 HI2]. cbn in HI2.
      destruct (ccc ch <=? lc) eqn:E1.
      * destruct (ccc ch =? 0) eqn:E2.
        -- apply ordered_starter_cons; [exact HK|]. apply ordered_app_starter; auto.
           ++ apply IH; auto; [exact I|lia|reflexivity].
           ++ apply rc_hd. lia.
        -- apply IH; auto.
           ++ apply ordered_snoc; [exact HB|]. eapply Forall_weak; [|exact HI1]. cbn. intros; lia.
           ++ cbn. split; [|exact HG]. apply Forall_app. split.
              ** eapply Forall_weak; [|exact HI1]. cbn. intros x [? ?]. split; [assumption|]. lia.
              ** constructor; [|constructor]. lia.
      * destruct (compose k ch) as [r|] eqn:E2.
        -- pose proof (compose_facts _ _ _ E2) as (R1 & _). apply IH; auto.
           cbn. split; [exact HI1|]. destruct t as [|y t]; cbn in *; [exact I|]. lia.
        -- apply IH; auto.
           ++ apply ordered_snoc; [exact HB|]. eapply Forall_weak; [|exact HI1]. cbn. intros; lia.
           ++ cbn. split; [|exact HG]. apply Forall_app. split.
              ** eapply Forall_weak; [|exact HI1]. cbn. intros x [? ?]. split; [assumption|]. lia.
              ** constructor; [|constructor]. lia.
    + cbn in HI. subst buf. destruct (compose k ch) as [r|] eqn:E2.
      * pose proof (compose_facts _ _ _ E2) as (R1 & _). apply IH; auto. reflexivity.
      * destruct (ccc ch =? 0) eqn:E3.
        -- apply ordered_starter_cons; [exact HK|]. apply IH; auto; [lia|reflexivity].
        -- apply IH; auto; [cbn; auto|]. cbn. split; [|exact HG]. constructor; [|constructor]. lia.
Qed.

Lemma recomp_ordered : forall s, ordered s -> ordered (recomp s).
Proof.
  induction s as [|c t IH]; intro H; cbn [recomp]; [exact I|].
  destruct (ccc c =? 0) eqn:E.
  - apply rc_ordered; auto; [exact (ordered_tl _ _ H)|exact I|lia|reflexivity].
  - specialize (IH (ordered_tl _ _ H)). split; [|exact IH].
    destruct t as [|y t]; cbn [recomp]; [exact I|].
    destruct H as [H _].
    destruct (ccc y =? 0) eqn:E2; [|exact H].
    pose proof (rc_hd t y [] None) as R. destruct (rc y [] None t); [exact I|]. left. apply R. lia.
Qed.

Lemma nfc_ordered : forall s, ordered (nfc s).
Proof. intro s. apply recomp_ordered, nfd_ordered. Qed.

(** * Concatenation *)
Definition never_second (c : N) : Prop := forall k, compose k c = None.
Definition inert (c : N) : Prop := ccc c = 0 /\ full c /\ never_second c /\ forall d, compose c d = None.

Lemma recomp_starter : forall c t, ccc c = 0 -> recomp (c :: t) = rc c [] None t.
Proof. intros c t H. cbn. rewrite H. reflexivity. Qed.

Lemma rc_split : forall x k buf l c t, ccc c = 0 -> never_second c -> (l = None -> buf = []) ->
  rc k buf l (x ++ c :: t) = rc k buf l x ++ recomp (c :: t).
Proof.
  induction x as [|ch x IH]; intros k buf l c t Hc HN HL.
  - cbn [app]. cbn [rc]. rewrite HN, Hc. rewrite recomp_starter by exact Hc.
    destruct l as [lc|].
    + assert (0 <=? lc = true) as -> by lia. reflexivity.
    + rewrite HL by reflexivity. reflexivity.
  - cbn [app rc]. destruct l as [lc|].
    + destruct (ccc ch <=? lc).
      * destruct (ccc ch =? 0).
        -- rewrite IH by auto. cbn [app]. now rewrite <- app_assoc.
        -- apply IH; auto. discriminate.
      * destruct (compose k ch); apply IH; auto; discriminate.
    + rewrite HL by reflexivity. destruct (compose k ch).
      * apply IH; auto.
      * destruct (ccc ch =? 0); [rewrite IH by auto; reflexivity|]. apply IH; auto. discriminate.
Qed.

Lemma recomp_split : forall x c t, ccc c = 0 -> never_second c ->
  recomp (x ++ c :: t) = recomp x ++ recomp (c :: t).
Proof.
  induction x as [|ch x IH]; intros c t Hc HN; [reflexivity|].
  cbn [app]. cbn [recomp]. destruct (ccc ch =? 0).
  - apply rc_split; auto.
  - now rewrite IH.
Qed.

Lemma rc_inert : forall s i buf l, (forall d, compose i d = None) -> (l = None -> buf = []) ->
  rc i buf l s = i :: buf ++ recomp s.
Proof.
  induction s as [|ch t IH]; intros i buf l HI HL; cbn [rc recomp]; [now rewrite app_nil_r|].
  rewrite HI. destruct l as [lc|].
  - destruct (ccc ch =? 0) eqn:E.
    + assert (ccc ch <=? lc = true) as -> by lia. reflexivity.
    + destruct (ccc ch <=? lc); rewrite IH by (auto; discriminate); now rewrite <- app_assoc.
  - destruct (ccc ch =? 0) eqn:E.
    + rewrite HL by reflexivity. reflexivity.
    + rewrite IH by (auto; discriminate). now rewrite <- app_assoc.
Qed.

Lemma nfd_app_starter : forall a b, hd_starter (flat_map cd b) -> nfd (a ++ b) = nfd a ++ nfd b.
Proof. intros a b H. unfold nfd. rewrite flat_map_app. now apply order_app_hd_starter. Qed.

(** The head of a decomposition. *)
Definition cdh (c : N) : N := hd 0 (cd c).

Lemma cd_cons : forall c, exists t, cd c = cdh c :: t.
Proof. intro c. unfold cdh. pose proof (cd_nonnil c). destruct (cd c) as [|x t]; [congruence|]. now exists t. Qed.

(** [b] starts a new normalization segment. *)
Definition seg_start (b : list N) : Prop :=
  match b with [] => True | c :: _ => ccc (cdh c) = 0 /\ never_second (cdh c) end.

Lemma nfc_app_start : forall a b, seg_start b -> nfc (a ++ b) = nfc a ++ nfc b.
Proof.
  intros a [|c b] H; [now rewrite !app_nil_r|].
  destruct H as [H1 H2]. destruct (cd_cons c) as [t E].
  unfold nfc. rewrite nfd_app_starter by (cbn; rewrite E; exact H1).
  assert (E2 : nfd (c :: b) = cdh c :: order (t ++ flat_map cd b)).
  { unfold nfd. cbn [flat_map]. rewrite E. cbn [app]. rewrite order_cons, ins_starter by exact H1. reflexivity. }
  rewrite E2. now apply recomp_split.
Qed.

Lemma nfc_app_inert : forall a i b, inert i -> nfc (a ++ i :: b) = nfc a ++ i :: nfc b.
Proof.
  intros a i b (H1 & H2 & H3 & H4).
  assert (C : cdh i = i) by (unfold cdh; rewrite H2; reflexivity).
  rewrite nfc_app_start by (cbn; rewrite C; auto). f_equal.
  unfold nfc, nfd. cbn [flat_map]. rewrite H2. cbn [app]. rewrite order_cons, ins_starter by exact H1.
  rewrite recomp_starter by exact H1. now rewrite rc_inert by auto.
Qed.

Lemma nfc_cons_inert : forall i b, inert i -> nfc (i :: b) = i :: nfc b.
Proof. intros i b H. exact (nfc_app_inert [] i b H). Qed.

Lemma nfc_nil : nfc [] = [].
Proof. reflexivity. Qed.

Lemma nfc_nonnil : forall s, s <> [] -> nfc s <> [].
Proof.
  intros s H E. assert (Q : nfd s = nfd []) by (rewrite <- nfd_nfc, E; reflexivity).
  destruct s as [|c s]; [congruence|]. destruct (cd_cons c) as [t Ec].
  apply (f_equal (@length N)) in Q. unfold nfd in Q. rewrite order_length in Q. cbn in Q. rewrite Ec in Q. discriminate.
Qed.

(** * Block structure of normalized text *)
(** Composing a run of non-starters. *)
Fixpoint rcs (k : N) (buf : list N) (l : option N) (s : list N) : N * list N * option N :=
  match s with
  | [] => (k, buf, l)
  | ch :: t =>
      match l with
      | None =>
          match compose k ch with
          | Some r => rcs r buf None t
          | None => rcs k (buf ++ [ch]) (Some (ccc ch)) t
          end
      | Some lc =>
          if ccc ch <=? lc then rcs k (buf ++ [ch]) (Some (ccc ch)) t
          else match compose k ch with
               | Some r => rcs r buf l t
               | None => rcs k (buf ++ [ch]) (Some (ccc ch)) t
               end
      end
  end.

Lemma rc_rcs : forall a k buf l s, allns a ->
  rc k buf l (a ++ s) = let '(k', buf', l') := rcs k buf l a in rc k' buf' l' s.
Proof.
  induction a as [|ch a IH]; intros k buf l s H; [reflexivity|].
  inversion H as [|? ? H1 H2]; subst. cbn [app rc rcs].
  assert (E : ccc ch =? 0 = false) by lia.
  destruct l as [lc|].
  - destruct (ccc ch <=? lc); [rewrite E; now apply IH|].
    destruct (compose k ch); now apply IH.
  - destruct (compose k ch); [now apply IH|]. rewrite E. now apply IH.
Qed.

Lemma rcs_app : forall a k buf l b, rcs k buf l (a ++ b) = let '(k', buf', l') := rcs k buf l a in rcs k' buf' l' b.
Proof.
  induction a as [|ch a IH]; intros k buf l b; [reflexivity|].
  cbn [app rcs]. destruct l as [lc|].
  - destruct (ccc ch <=? lc); [apply IH|]. destruct (compose k ch); apply IH.
  - destruct (compose k ch); apply IH.
Qed.

Lemma rcs_none : forall a k buf l k' buf', rcs k buf l a = (k', buf', None) -> l = None /\ buf' = buf.
Proof.
  induction a as [|ch a IH]; intros k buf l k' buf' H; cbn [rcs] in H.
  - injection H as -> -> ->. auto.
  - destruct l as [lc|].
    + destruct (ccc ch <=? lc); [apply IH in H; destruct H; discriminate|].
      destruct (compose k ch); apply IH in H; destruct H; discriminate.
    + destruct (compose k ch); [now apply IH in H|]. apply IH in H. destruct H. discriminate.
Qed.

Lemma rcs_starter : forall a k buf l, ccc k = 0 -> ccc (fst (fst (rcs k buf l a))) = 0.
Proof.
  induction a as [|ch a IH]; intros k buf l HK; cbn [rcs]; [exact HK|].
  destruct l as [lc|].
  - destruct (ccc ch <=? lc); [now apply IH|]. destruct (compose k ch) eqn:E; apply IH; auto. now apply compose_facts in E.
  - destruct (compose k ch) eqn:E; apply IH; auto. now apply compose_facts in E.
Qed.

Lemma rcs_buf_ns : forall a k buf l, allns a -> allns buf -> allns (snd (fst (rcs k buf l a))).
Proof.
  induction a as [|ch a IH]; intros k buf l H HB; cbn [rcs]; [exact HB|].
  inversion H; subst.
  assert (HB' : allns (buf ++ [ch])) by (apply Forall_app; split; auto).
  destruct l as [lc|].
  - destruct (ccc ch <=? lc); [now apply IH|]. destruct (compose k ch) eqn:E; apply IH; auto.
  - destruct (compose k ch) eqn:E; apply IH; auto.
Qed.

Lemma chain_app : forall a b k, chain k (a ++ b) = match chain k a with Some r => chain r b | None => None end.
Proof. induction a as [|x a IH]; intros b k; cbn; [reflexivity|]. destruct (compose k x); [apply IH|reflexivity]. Qed.

Lemma rc_chain : forall st k s k', chain k st = Some k' -> rc k [] None (st ++ s) = rc k' [] None s.
Proof.
  induction st as [|x st IH]; intros k s k' H; cbn in *; [congruence|].
  destruct (compose k x) as [r|]; [|discriminate]. now apply IH.
Qed.

Lemma sorted_ns_spec : forall l, sorted_ns l = true -> allns l /\ ordered l.
Proof.
  induction l as [|x t IH]; cbn; intro H; [split; [constructor|exact I]|].
  apply andb_prop in H. destruct H as [H H3]. apply andb_prop in H. destruct H as [H1 H2].
  destruct (IH H3) as [A B]. split.
  - constructor; [lia|exact A].
  - split; [|exact B]. destruct t; [exact I|]. right. lia.
Qed.

(** The result of normalizing the block [y :: m]. *)
Definition block (y : N) (m : list N) : N * list N * option N :=
  match cd y with
  | [] => (y, m, None)
  | d0 :: t =>
      match chain d0 (fst (split_starters t)) with
      | Some k => rcs k [] None (order (snd (split_starters t) ++ m))
      | None => (y, m, None)
      end
  end.

Lemma split_starters_st : forall st ns, Forall (fun x => ccc x = 0) st -> allns ns ->
  split_starters (st ++ ns) = (st, ns).
Proof.
  intros st ns H. induction H as [|x st Hx H IH]; intro HN; cbn.
  - destruct HN as [|y ns Hy HN]; cbn; [reflexivity|]. assert (ccc y =? 0 = false) as -> by lia. reflexivity.
  - assert (ccc x =? 0 = true) as -> by lia. now rewrite IH.
Qed.

(** The data of a composable starter. *)
Record sdata (y d0 : N) (st ns : list N) (k : N) : Prop := {
  sd_cd : cd y = d0 :: st ++ ns;
  sd_d0 : ccc d0 = 0;
  sd_st : Forall (fun x => ccc x = 0) st;
  sd_ns : allns ns;
  sd_ord : ordered ns;
  sd_k : chain d0 st = Some k;
  sd_y : chain k ns = Some y;
  sd_yes : qc_nfc y = Yes -> qc_nfc d0 = Yes
}.

Lemma sdata_ex : forall y, ccc y = 0 -> notno y -> exists d0 st ns k, sdata y d0 st ns k.
Proof.
  intros y H1 H2. destruct (starter_chain y H1 H2) as (d0 & st & ns & A & B & C & D & E & F).
  rewrite chain_app in E. destruct (chain d0 st) as [k|] eqn:G; [|discriminate].
  apply sorted_ns_spec in D. exists d0, st, ns, k. constructor; tauto.
Qed.

Lemma sdata_block : forall y d0 st ns k m, sdata y d0 st ns k -> block y m = rcs k [] None (order (ns ++ m)).
Proof.
  intros y d0 st ns k m [E1 E2 E3 E4 E5 E6 E7 E8]. unfold block. rewrite E1.
  rewrite split_starters_st by assumption. cbn [fst snd]. now rewrite E6.
Qed.

Lemma chain_starter : forall l k r, ccc k = 0 -> chain k l = Some r -> ccc r = 0.
Proof.
  induction l as [|x l IH]; intros k r HK H; cbn in H; [congruence|].
  destruct (compose k x) eqn:E; [|discriminate]. apply IH in H; auto. now apply compose_facts in E.
Qed.

Lemma order_starters_app : forall st l, Forall (fun x => ccc x = 0) st -> order (st ++ l) = st ++ order l.
Proof. intros st l H. induction H as [|x st Hx H IH]; [reflexivity|]. cbn [app]. rewrite order_cons, IH, ins_starter by exact Hx. reflexivity. Qed.

Lemma order_allns : forall l, allns l -> allns (order l).
Proof. intros l H. apply Forall_forall. intros x HI. rewrite in_order in HI. revert x HI. now apply Forall_forall. Qed.

Lemma flat_cd_hd_starter : forall rest, hd_starter rest -> Forall notno rest -> hd_starter (flat_map cd rest).
Proof.
  intros [|c t] H HF; [exact I|]. inversion HF; subst. cbn in H.
  destruct (sdata_ex c H) as (d0 & st & ns & k & [E1 E2 _ _ _ _ _]); [assumption|].
  cbn. rewrite E1. exact E2.
Qed.

Lemma ns_full : forall m, allns m -> Forall notno m -> Forall full m.
Proof.
  intros m H1 H2. apply Forall_forall. intros x HI. unfold allns in H1. rewrite Forall_forall in H1, H2.
  apply nonstarter_cd; [now apply H1|now apply H2].
Qed.

Lemma cdh_eq : forall c d t, cd c = d :: t -> cdh c = d.
Proof. intros c d t H. unfold cdh. now rewrite H. Qed.

Lemma nfd_cons_hd : forall c t, ccc (cdh c) = 0 -> exists u, nfd (c :: t) = cdh c :: u.
Proof.
  intros c t H. destruct (cd_cons c) as [u E]. unfold nfd. cbn [flat_map]. rewrite E. cbn [app].
  rewrite order_cons, ins_starter by exact H. eauto.
Qed.

(** Normalizing a block followed by a starter. *)
Lemma nfc_block : forall y m rest, ccc y = 0 -> notno y -> allns m -> Forall notno m ->
  hd_starter rest -> Forall notno rest ->
  nfc (y :: m ++ rest) =
    let '(k', buf', l') := block y m in
    match rest with
    | [] => k' :: buf'
    | c :: _ =>
        match l', compose k' (cdh c) with
        | None, Some r => rc r [] None (tl (nfd rest))
        | _, _ => k' :: buf' ++ nfc rest
        end
    end.
Proof.
  intros y m rest Hy HNy Hm HNm Hr HNr.
  destruct (sdata_ex y Hy HNy) as (d0 & st & ns & k & S).
  rewrite (sdata_block _ _ _ _ _ _ S). destruct S as [E1 E2 E3 E4 E5 E6 E7].
  assert (D : nfd (y :: m ++ rest) = d0 :: st ++ order (ns ++ m) ++ nfd rest).
  { unfold nfd. cbn [flat_map]. rewrite flat_map_app, E1, (flat_cd_full m) by now apply ns_full.
    replace ((d0 :: st ++ ns) ++ m ++ flat_map cd rest) with ((d0 :: st ++ ns ++ m) ++ flat_map cd rest)
      by (cbn [app]; now rewrite <- !app_assoc).
    rewrite order_app_hd_starter by now apply flat_cd_hd_starter.
    rewrite order_cons, order_starters_app by exact E3.
    rewrite ins_starter by exact E2. cbn [app]. now rewrite <- app_assoc. }
  unfold nfc at 1. rewrite D, recomp_starter by exact E2.
  rewrite (rc_chain _ _ _ _ E6). rewrite rc_rcs by (apply order_allns, Forall_app; auto).
  destruct (rcs k [] None (order (ns ++ m))) as [[k' buf'] l'] eqn:R.
  destruct rest as [|c t].
  { reflexivity. }
  inversion HNr; subst. cbn in Hr.
  destruct (sdata_ex c Hr) as (e0 & est & ens & ek & [F1 F2 _ _ _ _ _]); [assumption|].
  pose proof (cdh_eq _ _ _ F1) as F3. rewrite F3.
  assert (Hc : ccc (cdh c) = 0) by (rewrite F3; exact F2).
  destruct (nfd_cons_hd c t Hc) as [u U]. rewrite F3 in U.
  unfold nfc. rewrite U. cbn [tl rc]. rewrite F2. rewrite recomp_starter by exact F2.
  destruct l' as [lc|].
  - assert (0 <=? lc = true) as -> by lia. reflexivity.
  - apply rcs_none in R. destruct R as [_ ->].
    destruct (compose k' e0); reflexivity.
Qed.

(** Leading non-starters pass through. *)
Lemma nfc_leading : forall m rest, allns m -> Forall notno m -> hd_starter rest -> Forall notno rest ->
  nfc (m ++ rest) = order m ++ nfc rest.
Proof.
  intros m rest H1 H2 H3 H4. unfold nfc.
  rewrite nfd_app_starter by now apply flat_cd_hd_starter.
  unfold nfd at 1. rewrite flat_cd_full by now apply ns_full.
  pose proof (order_allns _ H1) as HO. induction HO as [|x l Hx HO IH]; [reflexivity|].
  cbn. assert (ccc x =? 0 = false) as -> by lia. now rewrite IH.
Qed.

(** Splitting a list at its leading non-starters. *)
Fixpoint take_ns (l : list N) : list N := match l with [] => [] | c :: t => if ccc c =? 0 then [] else c :: take_ns t end.
Fixpoint drop_ns (l : list N) : list N := match l with [] => [] | c :: t => if ccc c =? 0 then l else drop_ns t end.
Lemma take_drop_ns : forall l, take_ns l ++ drop_ns l = l.
Proof. induction l as [|c t IH]; cbn; [reflexivity|]. destruct (ccc c =? 0); cbn; [reflexivity|]. now rewrite IH. Qed.
Lemma take_ns_ns : forall l, allns (take_ns l).
Proof. induction l as [|c t IH]; cbn; [constructor|]. destruct (ccc c =? 0) eqn:E; constructor; [lia|exact IH]. Qed.
Lemma drop_ns_hd : forall l, hd_starter (drop_ns l).
Proof. induction l as [|c t IH]; cbn; [exact I|]. destruct (ccc c =? 0) eqn:E; [cbn; lia|exact IH]. Qed.
Lemma take_ns_app : forall m r, allns m -> hd_starter r -> take_ns (m ++ r) = m /\ drop_ns (m ++ r) = r.
Proof.
  intros m r H HR. induction H as [|x m Hx H IH].
  - destruct r as [|c r]; [auto|]. cbn in *. rewrite HR. auto.
  - cbn. assert (ccc x =? 0 = false) as -> by lia. destruct IH as [-> ->]. auto.
Qed.
Lemma drop_ns_length : forall l, (length (drop_ns l) <= length l)%nat.
Proof. induction l as [|c t IH]; cbn; [lia|]. destruct (ccc c =? 0); cbn; lia. Qed.

Lemma rc_head_len : forall s k buf l, exists h t, rc k buf l s = h :: t /\ (length (cd k) <= length (cd h))%nat.
Proof.
  induction s as [|ch s IH]; intros k buf l; cbn [rc]; [eauto|].
  destruct l as [lc|].
  - destruct (ccc ch <=? lc).
    + destruct (ccc ch =? 0); eauto.
    + destruct (compose k ch) as [r|] eqn:E; [|apply IH].
      destruct (IH r buf (Some lc)) as (h & t & -> & L). exists h, t. split; [reflexivity|].
      rewrite (compose_cd _ _ _ E), app_length in L. lia.
  - destruct (compose k ch) as [r|] eqn:E.
    + destruct (IH r buf None) as (h & t & -> & L). exists h, t. split; [reflexivity|].
      rewrite (compose_cd _ _ _ E), app_length in L. lia.
    + destruct (ccc ch =? 0); eauto.
Qed.

Lemma rcs_len : forall a k buf l k' buf' l', rcs k buf l a = (k', buf', l') -> Forall full a ->
  (length (cd k') + length buf' = length (cd k) + length buf + length a)%nat.
Proof.
  induction a as [|ch a IH]; intros k buf l k' buf' l' H HF; cbn [rcs] in H.
  - injection H as -> -> ->. cbn. lia.
  - inversion HF as [|? ? F1 F2]; subst. destruct l as [lc|].
    + destruct (ccc ch <=? lc).
      * apply IH in H; auto. rewrite app_length in H. cbn in *. lia.
      * destruct (compose k ch) as [r|] eqn:E; apply IH in H; auto.
        -- rewrite (compose_cd _ _ _ E), app_length, F1 in H. cbn in *. lia.
        -- rewrite app_length in H. cbn in *. lia.
    + destruct (compose k ch) as [r|] eqn:E; apply IH in H; auto.
      * rewrite (compose_cd _ _ _ E), app_length, F1 in H. cbn in *. lia.
      * rewrite app_length in H. cbn in *. lia.
Qed.

Lemma chain_len : forall l k r, chain k l = Some r -> Forall full l -> (length (cd r) = length (cd k) + length l)%nat.
Proof.
  induction l as [|x l IH]; intros k r H HF; cbn in H; [injection H as ->; cbn; lia|].
  inversion HF as [|? ? F1 F2]; subst. destruct (compose k x) as [q|] eqn:E; [|discriminate].
  apply IH in H; auto. rewrite (compose_cd _ _ _ E), app_length, F1 in H. cbn in *. lia.
Qed.

Definition block_ok (y : N) (m : list N) : Prop := exists l, block y m = (y, m, l).

Lemma sdata_full : forall y d0 st ns k, sdata y d0 st ns k -> full d0 /\ Forall full st /\ Forall full ns.
Proof.
  intros y d0 st ns k [E1 E2 E3 E4 E5 E6 E7].
  assert (A : Forall full (cd y)) by (apply Forall_forall; intros x; apply cd_full).
  rewrite E1 in A. inversion A as [|? ? A1 A2]; subst. apply Forall_app in A2. tauto.
Qed.

Lemma block_nil_none : forall y l, ccc y = 0 -> notno y -> block y [] = (y, [], l) -> l = None.
Proof.
  intros y l H1 H2 H. destruct (sdata_ex y H1 H2) as (d0 & st & ns & k & S).
  rewrite (sdata_block _ _ _ _ _ _ S) in H. destruct S as [E1 E2 E3 E4 E5 E6 E7].
  rewrite app_nil_r, order_fix in H by exact E5. clear - H E7.
  revert k H E7. induction ns as [|x ns IH]; intros k H E7; cbn in *; [congruence|].
  destruct (compose k x) as [r|]; [|discriminate]. eapply IH; eassumption.
Qed.

(** Decomposition of stability at the first block. *)
Lemma nfc_stable_block : forall y m rest, ccc y = 0 -> notno y -> allns m -> Forall notno m ->
  hd_starter rest -> Forall notno rest ->
  nfc (y :: m ++ rest) = y :: m ++ rest <->
  block_ok y m /\ nfc rest = rest /\ (m = [] -> match rest with [] => True | c :: _ => compose y (cdh c) = None end).
Proof.
  intros y m rest Hy HNy Hm HNm Hr HNr. rewrite nfc_block by assumption.
  destruct (block y m) as [[k' buf'] l'] eqn:B.
  assert (BN : allns buf').
  { destruct (sdata_ex y Hy HNy) as (d0 & st & ns & k & S).
    rewrite (sdata_block _ _ _ _ _ _ S) in B. destruct S as [E1 E2 E3 E4 E5 E6 E7].
    pose proof (rcs_buf_ns (order (ns ++ m)) k [] None) as Q. rewrite B in Q. apply Q; [|constructor].
    apply order_allns, Forall_app; auto. }
  assert (HL : (length (cd k') + length buf' = length (cd y) + length m)%nat).
  { destruct (sdata_ex y Hy HNy) as (d0 & st & ns & k & S). destruct (sdata_full _ _ _ _ _ S) as (F0 & F1 & F2).
    rewrite (sdata_block _ _ _ _ _ _ S) in B. destruct S as [E1 E2 E3 E4 E5 E6 E7].
    apply rcs_len in B.
    - rewrite order_length, app_length in B. apply chain_len in E6; auto. apply chain_len in E7; auto. cbn in B. lia.
    - apply Forall_forall. intros x HI. rewrite in_order in HI. revert x HI. apply Forall_forall, Forall_app. split; [auto|].
      now apply ns_full. }
  assert (MAIN : k' :: buf' ++ nfc rest = y :: m ++ rest <-> (k' = y /\ buf' = m /\ nfc rest = rest)).
  { split; [|intros (-> & -> & ->); reflexivity].
    intro E. injection E as -> E2.
    assert (HN : hd_starter (nfc rest)).
    { destruct rest as [|c t]; [exact I|]. inversion HNr; subst. cbn in Hr.
      destruct (sdata_ex c Hr) as (e0 & est & ens & ek & [F1 F2 _ _ _ _ _]); [assumption|].
      pose proof (cdh_eq _ _ _ F1) as F3.
      assert (Hc : ccc (cdh c) = 0) by (rewrite F3; exact F2).
      destruct (nfd_cons_hd c t Hc) as [u U]. unfold nfc. rewrite U, recomp_starter by exact Hc. now apply rc_hd. }
    pose proof (take_ns_app buf' (nfc rest) BN HN) as [T1 T2].
    pose proof (take_ns_app m rest Hm Hr) as [T3 T4]. rewrite E2 in T1, T2. split; [reflexivity|split; congruence]. }
  destruct rest as [|c t].
  { split.
    - intro E. rewrite app_nil_r in E. injection E as -> ->. split; [exists l'; exact B|split; auto].
    - intros ([l B2] & _). rewrite B in B2. injection B2 as -> -> _. now rewrite app_nil_r. }
  destruct l' as [lc|].
  - rewrite MAIN. split.
    + intros (-> & -> & E). split; [exists (Some lc); exact B|]. split; [exact E|].
      intros ->. exfalso. apply block_nil_none in B; auto. discriminate.
    + intros ([l B2] & E & _). rewrite B in B2. injection B2 as -> -> _. auto.
  - assert (B0 : buf' = []).
    { destruct (sdata_ex y Hy HNy) as (d0 & st & ns & k & S).
      rewrite (sdata_block _ _ _ _ _ _ S) in B. apply rcs_none in B. tauto. }
    subst buf'.
    destruct (compose k' (cdh c)) as [r|] eqn:C.
    + split.
      * intro E. exfalso. destruct (rc_head_len (tl (nfd (c :: t))) r [] None) as (h & u & EH & L).
        rewrite E in EH. injection EH as <- _.
        rewrite (compose_cd _ _ _ C), app_length in L.
        pose proof (cd_nonnil (cdh c)) as NN. destruct (cd (cdh c)); [congruence|]. cbn in *. lia.
      * intros ([l B2] & _ & E). rewrite B in B2. injection B2 as -> <- _. rewrite E in C by reflexivity. discriminate.
    + rewrite MAIN. split.
      * intros (-> & <- & E). split; [exists None; exact B|]. split; [exact E|]. auto.
      * intros ([l B2] & E & _). rewrite B in B2. injection B2 as -> <- _. auto.
Qed.

(** Merging two sorted runs. *)
Inductive Merge : list N -> list N -> list N -> Prop :=
| Mnil : forall ms, Merge [] ms ms
| Mn : forall n ns ms l, Merge ns ms l -> Merge (n :: ns) ms (n :: l)
| Mm : forall m ns ms l, Merge ns ms l -> Forall (fun n => ccc m < ccc n) ns -> Merge ns (m :: ms) (m :: l).

Lemma ordered_all_ge : forall n ns, ordered (n :: ns) -> allns ns -> Forall (fun x => ccc n <= ccc x) ns.
Proof.
  intros n ns. revert n. induction ns as [|x ns IH]; intros n H HA; [constructor|].
  inversion HA; subst. destruct H as [G1 G2]. constructor; [lia|].
  eapply Forall_weak; [|apply IH; eassumption]. cbn. intros; lia.
Qed.

Lemma merge_ins : forall n ns ms l, Merge ns ms l -> allns ms -> Forall (fun x => ccc n <= ccc x) ns ->
  Merge (n :: ns) ms (ins n l).
Proof.
  intros n ns ms l H. induction H as [ms|n1 ns ms l H IH|m ns ms l H IH HF]; intros HA HN.
  - induction HA as [|m ms Hm HA IH]; cbn; [constructor; constructor|].
    destruct (negb (ccc m =? 0) && (ccc m <? ccc n)) eqn:E.
    + apply Mm; [exact IH|]. constructor; [lia|constructor].
    + constructor. constructor.
  - cbn. inversion HN; subst. assert (negb (ccc n1 =? 0) && (ccc n1 <? ccc n) = false) as -> by lia.
    constructor. now constructor.
  - inversion HA; subst. cbn. destruct (negb (ccc m =? 0) && (ccc m <? ccc n)) eqn:E.
    + apply Mm; [now apply IH|]. constructor; [lia|exact HF].
    + constructor. now constructor.
Qed.

Lemma order_merge : forall ns ms, allns ns -> ordered ns -> allns ms -> ordered ms -> Merge ns ms (order (ns ++ ms)).
Proof.
  induction ns as [|n ns IH]; intros ms H1 H2 H3 H4.
  - cbn. rewrite order_fix by exact H4. constructor.
  - cbn [app]. rewrite order_cons. inversion H1; subst. apply merge_ins; [apply IH; auto; exact (ordered_tl _ _ H2)|exact H3|].
    now apply ordered_all_ge.
Qed.

Definition lt_l (l : option N) (ns : list N) : Prop :=
  match l with None => True | Some lc => Forall (fun n => lc < ccc n) ns end.

(** Marks that never compose are buffered, the others compose: the block is rebuilt. *)
Lemma rcs_merge_yes : forall ns ms a, Merge ns ms a -> forall k y buf l,
  Forall never_second ms -> ordered ms -> chain k ns = Some y -> lt_l l ns ->
  exists l', rcs k buf l a = (y, buf ++ ms, l').
Proof.
  intros ns ms a H. induction H as [ms|n ns ms a H IH|m ns ms a H IH HF]; intros k y buf l HN HO HC HL.
  - cbn in HC. injection HC as <-. clear HL. revert buf l. induction HN as [|m ms Hm HN IHN]; intros buf l; cbn [rcs].
    + rewrite app_nil_r. eauto.
    + specialize (IHN (ordered_tl _ _ HO)). rewrite Hm.
      replace (buf ++ m :: ms) with ((buf ++ [m]) ++ ms) by now rewrite <- app_assoc.
      destruct l as [lc|]; [destruct (ccc m <=? lc)|]; apply IHN.
  - cbn in HC. destruct (compose k n) as [r|] eqn:E; [|discriminate]. cbn [rcs].
    destruct l as [lc|].
    + cbn in HL. inversion HL; subst. assert (ccc n <=? lc = false) as -> by lia. rewrite E. now apply IH.
    + rewrite E. now apply IH.
  - inversion HN as [|? ? HN1 HN2]; subst. cbn [rcs]. rewrite HN1.
    replace (buf ++ m :: ms) with ((buf ++ [m]) ++ ms) by now rewrite <- app_assoc.
    destruct l as [lc|]; [destruct (ccc m <=? lc)|]; (apply IH; auto; exact (ordered_tl _ _ HO)).
Qed.

Lemma block_ok_yes : forall y m, ccc y = 0 -> notno y -> allns m -> ordered m -> Forall never_second m -> block_ok y m.
Proof.
  intros y m H1 H2 H3 H4 H5. destruct (sdata_ex y H1 H2) as (d0 & st & ns & k & S). unfold block_ok.
  rewrite (sdata_block _ _ _ _ _ _ S). destruct S as [E1 E2 E3 E4 E5 E6 E7].
  destruct (rcs_merge_yes ns m (order (ns ++ m)) (order_merge _ _ E4 E5 H3 H4) k y [] None H5 H4 E7 I) as [l' L].
  exists l'. exact L.
Qed.

Lemma ordered_app : forall a b, ordered (a ++ b) -> ordered a /\ ordered b.
Proof.
  induction a as [|x a IH]; intros b H; [split; [exact I|exact H]|].
  cbn [app] in H. destruct H as [H1 H2]. apply IH in H2. destruct H2 as [H2 H3]. split; [|exact H3].
  split; [|exact H2]. destruct a as [|z a]; [exact I|exact H1].
Qed.

(** Strong induction along blocks. *)
Lemma block_ind : forall P : list N -> Prop,
  (forall m rest, allns m -> hd_starter rest -> P rest -> P (m ++ rest)) ->
  P [] ->
  (forall y m rest, ccc y = 0 -> allns m -> hd_starter rest -> P rest -> P (y :: m ++ rest)) ->
  forall l, P l.
Proof.
  intros P H0 Hn Hb.
  assert (S : forall n l, (length l <= n)%nat -> hd_starter l -> P l).
  { induction n as [|n IH]; intros l HL HS.
    - destruct l; [exact Hn|cbn in HL; lia].
    - destruct l as [|y t]; [exact Hn|]. rewrite <- (take_drop_ns t). apply Hb.
      + exact HS.
      + apply take_ns_ns.
      + apply drop_ns_hd.
      + apply IH; [|apply drop_ns_hd]. pose proof (drop_ns_length t). cbn in HL. lia. }
  intro l. rewrite <- (take_drop_ns l). apply H0; [apply take_ns_ns|apply drop_ns_hd|].
  eapply S; [apply le_n|apply drop_ns_hd].
Qed.

Definition yes (c : N) : Prop := qc_nfc c = Yes.
Lemma yes_never_second : forall c, yes c -> never_second c.
Proof. intros c H k. apply compose_second. rewrite H. discriminate. Qed.
Lemma yes_notno : forall c, yes c -> notno c.
Proof. intros c H. unfold notno. rewrite H. discriminate. Qed.
Lemma yes_cdh : forall c, ccc c = 0 -> yes c -> yes (cdh c) /\ ccc (cdh c) = 0.
Proof.
  intros c H Y. destruct (sdata_ex c H (yes_notno _ Y)) as (d0 & st & ns & k & [E1 E2 _ _ _ _ _ E8]).
  rewrite (cdh_eq _ _ _ E1). split; [apply E8; exact Y|exact E2].
Qed.

(** Text of QC=Yes characters in canonical order is normalized. *)
Lemma nfc_yes : forall s, ordered s -> Forall yes s -> nfc s = s.
Proof.
  apply (block_ind (fun s => ordered s -> Forall yes s -> nfc s = s)).
  - intros m rest Hm Hr IH HO HY. apply ordered_app in HO. destruct HO as [O1 O2]. apply Forall_app in HY. destruct HY as [Y1 Y2].
    rewrite nfc_leading; auto.
    + rewrite order_fix by exact O1. now rewrite IH.
    + eapply Forall_weak; [apply yes_notno|exact Y1].
    + eapply Forall_weak; [apply yes_notno|exact Y2].
  - reflexivity.
  - intros y m rest Hy Hm Hr IH HO HY. inversion HY as [|? ? Y0 HY']; subst. apply Forall_app in HY'. destruct HY' as [Y1 Y2].
    pose proof (ordered_app _ _ (ordered_tl _ _ HO)) as [O1 O2].
    apply nfc_stable_block; auto.
    + now apply yes_notno.
    + eapply Forall_weak; [apply yes_notno|exact Y1].
    + eapply Forall_weak; [apply yes_notno|exact Y2].
    + split; [|split; [auto|]].
      * apply block_ok_yes; auto; [now apply yes_notno|]. eapply Forall_weak; [apply yes_never_second|exact Y1].
      * intros _. destruct rest as [|c t]; [exact I|]. inversion Y2; subst. cbn in Hr.
        apply yes_never_second. now apply yes_cdh.
Qed.

(** * Substrings *)
(** Removing the last mark of a stable block. *)
Definition le_l (l : option N) (buf : list N) : Prop :=
  match l with None => buf = [] | Some lc => Forall (fun n => ccc n <= lc) buf end.

Lemma rcs_le : forall a k buf l k' buf' l', ordered a -> allns a -> le_l l buf -> (match l with None => True | Some lc => ge_hd lc a end) ->
  rcs k buf l a = (k', buf', l') -> le_l l' buf' /\ (forall lc, l' = Some lc -> l = Some lc \/ exists x, In x a /\ ccc x = lc).
Proof.
  induction a as [|ch a IH]; intros k buf l k' buf' l' HO HA HL HG H; cbn [rcs] in H.
  - injection H as -> -> ->. split; [exact HL|auto].
  - inversion HA; subst. pose proof (ordered_tl _ _ HO) as HO'. pose proof (ge_hd_ordered _ _ HO) as HG'.
    assert (B1 : forall lc, l = Some lc -> le_l (Some (ccc ch)) (buf ++ [ch])).
    { intros lc ->. cbn in *. apply Forall_app. split; [|constructor; [lia|constructor]].
      eapply Forall_weak; [|exact HL]. cbn. intros. lia. }
    destruct l as [lc|].
    + destruct (ccc ch <=? lc) eqn:E.
      * apply IH in H; auto; [|now apply (B1 lc)]. destruct H as [R1 R2]. split; [exact R1|].
        intros q Q. destruct (R2 q Q) as [Z|(x & X1 & X2)]; [injection Z as <-; right; exists ch; cbn; auto|right; exists x; cbn; auto].
      * destruct (compose k ch) eqn:C.
        -- apply IH in H; auto.
           ++ destruct H as [R1 R2]. split; [exact R1|].
              intros q Q. destruct (R2 q Q) as [Z|(x & X1 & X2)]; [auto|right; exists x; cbn; auto].
           ++ destruct a as [|z a]; cbn in *; [exact I|]. lia.
        -- apply IH in H; auto; [|now apply (B1 lc)]. destruct H as [R1 R2]. split; [exact R1|].
           intros q Q. destruct (R2 q Q) as [Z|(x & X1 & X2)]; [injection Z as <-; right; exists ch; cbn; auto|right; exists x; cbn; auto].
    + destruct (compose k ch) eqn:C.
      * apply IH in H; auto. destruct H as [R1 R2]. split; [exact R1|].
        intros q Q. destruct (R2 q Q) as [Z|(x & X1 & X2)]; [auto|right; exists x; cbn; auto].
      * cbn in HL. subst buf. apply IH in H; auto; [|cbn; constructor; [lia|constructor]]. destruct H as [R1 R2]. split; [exact R1|].
        intros q Q. destruct (R2 q Q) as [Z|(x & X1 & X2)]; [injection Z as <-; right; exists ch; cbn; auto|right; exists x; cbn; auto].
Qed.

(** After a buffered run, larger marks either all compose or the last buffered one changes. *)
Lemma rcs_tail : forall a k buf l k' buf' l' , rcs k buf l a = (k', buf', l') ->
  (chain k a = Some k' /\ buf' = buf /\ l' = l) \/ (exists b x, buf' = b ++ [x] /\ In x a) \/ (exists lc, l = Some lc /\ Exists (fun x => ccc x <= lc) a).
Proof.
  induction a as [|ch a IH]; intros k buf l k' buf' l' H; cbn [rcs] in H.
  - injection H as -> -> ->. left. cbn. auto.
  - assert (BUF : forall l0, rcs k (buf ++ [ch]) l0 a = (k', buf', l') -> exists b x, buf' = b ++ [x] /\ In x (ch :: a)).
    { clear. revert k buf ch. induction a as [|c a IH]; intros k buf ch l0 H; cbn [rcs] in H.
      - injection H as <- <- <-. exists buf, ch. cbn. auto.
      - assert (G : forall k0 l1, rcs k0 ((buf ++ [ch]) ++ [c]) l1 a = (k', buf', l') -> exists b x, buf' = b ++ [x] /\ In x (ch :: c :: a)).
        { intros k0 l1 H1. apply IH in H1. destruct H1 as (b & x & E & HI). exists b, x. split; [exact E|]. cbn in *. tauto. }
        assert (G2 : forall k0 l1, rcs k0 (buf ++ [ch]) l1 a = (k', buf', l') -> exists b x, buf' = b ++ [x] /\ In x (ch :: c :: a)).
        { intros k0 l1 H1. apply IH in H1. destruct H1 as (b & x & E & HI). exists b, x. split; [exact E|]. cbn in *. tauto. }
        destruct l0 as [lc|]; [destruct (ccc c <=? lc)|]; try destruct (compose k c); eauto. }
    destruct l as [lc|].
    + destruct (ccc ch <=? lc) eqn:E.
      * right. right. exists lc. split; [reflexivity|]. constructor. lia.
      * destruct (compose k ch) as [r|] eqn:C.
        -- apply IH in H. destruct H as [(A & B & D)|[(b & x & A & B)|(q & A & B)]].
           ++ left. cbn. rewrite C. auto.
           ++ right. left. exists b, x. cbn. auto.
           ++ right. right. exists q. auto.
        -- right. left. eauto.
    + destruct (compose k ch) as [r|] eqn:C.
      * apply IH in H. destruct H as [(A & B & D)|[(b & x & A & B)|(q & A & B)]].
        -- left. cbn. rewrite C. auto.
        -- right. left. exists b, x. cbn. auto.
        -- right. right. exists q. auto.
      * right. left. eauto.
Qed.

Lemma rcs_chain : forall a k buf l k', chain k a = Some k' -> lt_l l a -> rcs k buf l a = (k', buf, l).
Proof.
  induction a as [|ch a IH]; intros k buf l k' H HL; cbn in H.
  - injection H as ->. reflexivity.
  - destruct (compose k ch) as [r|] eqn:C; [|discriminate]. cbn [rcs]. destruct l as [lc|].
    + cbn in HL. inversion HL; subst. assert (ccc ch <=? lc = false) as -> by lia. rewrite C. now apply IH.
    + rewrite C. now apply IH.
Qed.

(** Inserting a last (largest) mark. *)
Lemma order_snoc_split : forall a z, ordered a -> allns a -> ccc z <> 0 ->
  exists r1 r2, a = r1 ++ r2 /\ order (a ++ [z]) = r1 ++ z :: r2 /\ Forall (fun x => ccc x <= ccc z) r1 /\ Forall (fun x => ccc z < ccc x) r2.
Proof.
  induction a as [|x a IH]; intros z HO HA Hz.
  - exists [], []. cbn [app]. rewrite order_fix by (cbn; auto). repeat split; constructor.
  - inversion HA; subst. destruct (IH z (ordered_tl _ _ HO)) as (r1 & r2 & E1 & E2 & F1 & F2); auto.
    destruct (ccc x <=? ccc z) eqn:E.
    + exists (x :: r1), r2. cbn [app]. rewrite order_cons, E2. split; [now rewrite E1|]. split.
      * rewrite ins_fix; [reflexivity|]. assert (O : ordered (r1 ++ z :: r2)) by (rewrite <- E2; apply order_ordered).
        split; [|exact O]. destruct r1 as [|w r1]; cbn [app]; [right; lia|]. subst a. exact (proj1 HO).
      * split; [constructor; [lia|exact F1]|exact F2].
    + assert (r1 = []).
      { destruct r1 as [|w r1]; [reflexivity|]. exfalso. subst a. destruct HO as [HO _]. cbn in HO.
        inversion F1; subst. inversion H2; subst. cbn in *. lia. }
      subst r1. cbn in E1. subst r2. exists [], (x :: a). cbn [app]. rewrite order_cons, E2. cbn [app].
      split; [reflexivity|]. split.
      * cbn. assert (negb (ccc z =? 0) && (ccc z <? ccc x) = true) as -> by lia.
        f_equal. apply ins_fix. exact HO.
      * split; [constructor|]. constructor; [lia|exact F2].
Qed.

Lemma snoc_inj : forall (a b : list N) x y, a ++ [x] = b ++ [y] -> a = b /\ x = y.
Proof. intros. apply app_inj_tail. assumption. Qed.

Lemma block_ok_snoc : forall y m z, ccc y = 0 -> notno y -> allns (m ++ [z]) -> ordered (m ++ [z]) ->
  block_ok y (m ++ [z]) -> block_ok y m.
Proof.
  intros y m z H1 H2 H3 H4 [l B]. destruct (sdata_ex y H1 H2) as (d0 & st & ns & k & S). unfold block_ok.
  rewrite (sdata_block _ _ _ _ _ m S). rewrite (sdata_block _ _ _ _ _ _ S) in B. destruct S as [E1 E2 E3 E4 E5 E6 E7 E8].
  apply Forall_app in H3. destruct H3 as [Hm Hz]. inversion Hz as [|? ? Hz' _]; subst.
  destruct (ordered_app _ _ H4) as [Om _].
  assert (AN : allns (order (ns ++ m))) by (apply order_allns, Forall_app; auto).
  destruct (order_snoc_split (order (ns ++ m)) z (order_ordered _) AN Hz') as (r1 & r2 & R1 & R2 & F1 & F2).
  rewrite order_order_l, <- app_assoc in R2. rewrite R2 in B. rewrite R1 in *.
  rewrite rcs_app in B. destruct (rcs k [] None r1) as [[k1 b1] l1] eqn:Q1.
  apply Forall_app in AN. destruct AN as [AN1 AN2].
  assert (O12 : ordered (r1 ++ r2)) by (rewrite <- R1; apply order_ordered).
  destruct (ordered_app _ _ O12) as [O1 O2].
  destruct (rcs_le _ _ _ _ _ _ _ O1 AN1 (eq_refl : le_l None []) I Q1) as [L1 L2].
  rewrite rcs_app, Q1.
  assert (LT : lt_l l1 r2).
  { destruct l1 as [lc|]; [|exact I]. cbn. destruct (L2 lc eq_refl) as [?|(x & X1 & X2)]; [discriminate|].
    rewrite Forall_forall in F1. apply F1 in X1. eapply Forall_weak; [|exact F2]. cbn. intros; lia. }
  cbn [rcs] in B.
  assert (NLAST : forall b x, m ++ [z] = b ++ [x] -> In x r2 -> False).
  { intros b x E HI. apply snoc_inj in E. destruct E as [_ <-]. rewrite Forall_forall in F2. apply F2 in HI. lia. }
  assert (CB : rcs k1 (b1 ++ [z]) (Some (ccc z)) r2 = (y, m ++ [z], l) -> chain k1 r2 = Some y /\ b1 = m).
  { intro R. apply rcs_tail in R. destruct R as [(A & B' & D)|[(b & x & A & B')|(q & A & B')]].
    - apply snoc_inj in B'. destruct B' as [-> _]. auto.
    - exfalso. exact (NLAST _ _ A B').
    - exfalso. injection A as <-. apply Exists_exists in B'. destruct B' as (x & X1 & X2).
      rewrite Forall_forall in F2. apply F2 in X1. lia. }
  assert (CC : forall r, (l1 = None \/ exists lc, l1 = Some lc /\ lc < ccc z) -> rcs r b1 l1 r2 = (y, m ++ [z], l) -> False).
  { intros r HL R. apply rcs_tail in R. destruct R as [(A & B' & D)|[(b & x & A & B')|(q & A & B')]].
    - destruct HL as [->|(lc & -> & LC)]; cbn in L1.
      + subst b1. destruct m; discriminate.
      + rewrite <- B' in L1. apply Forall_app in L1. destruct L1 as [_ L1]. inversion L1; subst. lia.
    - exact (NLAST _ _ A B').
    - subst l1. cbn in LT. apply Exists_exists in B'. destruct B' as (x & X1 & X2).
      rewrite Forall_forall in LT. apply LT in X1. lia. }
  assert (G : chain k1 r2 = Some y /\ b1 = m).
  { destruct l1 as [lc|].
    - destruct (ccc z <=? lc) eqn:EZ; [now apply CB|].
      destruct (compose k1 z) as [r|] eqn:C; [|now apply CB].
      exfalso. apply (CC r); [|exact B]. right. exists lc. split; [reflexivity|lia].
    - destruct (compose k1 z) as [r|] eqn:C; [|now apply CB].
      exfalso. apply (CC r); [|exact B]. auto. }
  destruct G as [G ->]. rewrite (rcs_chain _ _ _ _ _ G LT). eauto.
Qed.

Lemma allns_snoc_cases : forall (P : list N -> Prop), P [] -> (forall m z, P m -> P (m ++ [z])) -> forall m, P m.
Proof. intros P H0 H m. induction m using rev_ind; auto. Qed.

Lemma block_ok_prefix : forall m2 y m1, ccc y = 0 -> notno y -> allns (m1 ++ m2) -> ordered (m1 ++ m2) ->
  block_ok y (m1 ++ m2) -> block_ok y m1.
Proof.
  intro m2. induction m2 as [|z m2 IH] using rev_ind; intros y m1 H1 H2 H3 H4 H5.
  - now rewrite app_nil_r in H5.
  - rewrite app_assoc in *. apply (IH y m1 H1 H2).
    + apply Forall_app in H3. tauto.
    + apply ordered_app in H4. tauto.
    + eapply block_ok_snoc; eauto.
Qed.

Lemma nfc_stable_facts : forall s, nfc s = s -> ordered s /\ Forall notno s.
Proof. intros s H. rewrite <- H. split; [apply nfc_ordered|apply nfc_notno]. Qed.

(** A prefix of normalized text is normalized. *)
Lemma nfc_prefix : forall a b, nfc (a ++ b) = a ++ b -> nfc a = a.
Proof.
  intro a. apply (block_ind (fun a => forall b, nfc (a ++ b) = a ++ b -> nfc a = a)); clear a.
  - intros m rest Hm Hr IH b H. destruct (nfc_stable_facts _ H) as [HO HN].
    apply Forall_app in HN. destruct HN as [HN _]. apply Forall_app in HN. destruct HN as [N1 N2].
    apply ordered_app in HO. destruct HO as [HO _]. apply ordered_app in HO. destruct HO as [O1 O2].
    rewrite nfc_leading by auto. rewrite (order_fix m O1). f_equal.
    destruct rest as [|c t]; [reflexivity|].
    apply (IH b). rewrite <- app_assoc in H.
    destruct (nfc_stable_facts _ H) as [_ HN']. apply Forall_app in HN'.
    rewrite nfc_leading in H by (tauto || exact Hr).
    rewrite (order_fix m O1) in H. now apply app_inv_head in H.
  - reflexivity.
  - intros y m rest Hy Hm Hr IH b H. destruct (nfc_stable_facts _ H) as [HO HN].
    pose proof HN as HN0. apply Forall_app in HN. destruct HN as [HN HNb]. inversion HN as [|? ? HNy HN']; subst.
    apply Forall_app in HN'. destruct HN' as [N1 N2].
    apply nfc_stable_block; auto.
    destruct rest as [|c t].
    + rewrite app_nil_r in *. cbn [app] in *.
      (* the block continues into b *)
      rewrite <- (take_drop_ns b) in H. cbn [app] in H. rewrite app_assoc in H.
      assert (NB : Forall notno (take_ns b) /\ Forall notno (drop_ns b)) by (apply Forall_app; now rewrite take_drop_ns).
      destruct NB as [NB1 NB2].
      apply nfc_stable_block in H; auto.
      * destruct H as (B & _ & _). split; [|split; [reflexivity|auto]].
        eapply block_ok_prefix; [exact Hy|exact HNy| | |exact B].
        -- apply Forall_app. split; [exact Hm|apply take_ns_ns].
        -- assert (O : ordered ((m ++ take_ns b) ++ drop_ns b)) by (rewrite <- app_assoc, take_drop_ns; exact (ordered_tl _ _ HO)).
           apply ordered_app in O. tauto.
      * apply Forall_app. split; [exact Hm|apply take_ns_ns].
      * apply Forall_app. auto.
      * apply drop_ns_hd.
    + cbn [app] in H. rewrite <- app_assoc in H. apply nfc_stable_block in H; auto.
      * destruct H as (B & R & C). split; [exact B|]. split; [exact (IH b R)|exact C].
      * apply Forall_app. auto.
Qed.

(** A suffix of normalized text is normalized. *)
Lemma nfc_suffix : forall a b, nfc (a ++ b) = a ++ b -> nfc b = b.
Proof.
  induction a as [|z a IH]; intros b H; [exact H|]. apply IH. clear IH.
  cbn [app] in H. set (s := a ++ b) in *. clearbody s. clear a b.
  destruct (nfc_stable_facts _ H) as [HO HN]. inversion HN as [|? ? N0 N1]; subst.
  pose proof N1 as N1'. rewrite <- (take_drop_ns s) in N1'. apply Forall_app in N1'. destruct N1' as [N2 N3].
  pose proof (ordered_tl _ _ HO) as HO'. pose proof HO' as HO2. rewrite <- (take_drop_ns s) in HO2. apply ordered_app in HO2. destruct HO2 as [O1 O2].
  assert (K : nfc (drop_ns s) = drop_ns s).
  { destruct (N.eq_dec (ccc z) 0) as [Z|Z].
    - rewrite <- (take_drop_ns s) in H. apply nfc_stable_block in H; auto; [tauto|apply take_ns_ns|apply drop_ns_hd].
    - assert (A : allns (z :: take_ns s)) by (constructor; [exact Z|apply take_ns_ns]).
      rewrite <- (take_drop_ns s) in H. change (z :: take_ns s ++ drop_ns s) with ((z :: take_ns s) ++ drop_ns s) in H.
      rewrite nfc_leading in H; auto; [|apply drop_ns_hd].
      rewrite order_fix in H.
      + now apply app_inv_head in H.
      + rewrite <- (take_drop_ns s) in HO. change (z :: take_ns s ++ drop_ns s) with ((z :: take_ns s) ++ drop_ns s) in HO.
        apply ordered_app in HO. tauto. }
  rewrite <- (take_drop_ns s) at 1. rewrite nfc_leading; auto; [|apply take_ns_ns|apply drop_ns_hd].
  rewrite order_fix by exact O1. rewrite K. apply take_drop_ns.
Qed.

(** * Stream-safe counting *)
Fixpoint runs_ok (n : nat) (bs : list bool) : bool :=
  match bs with
  | [] => true
  | true :: t => Nat.leb (S n) 30 && runs_ok (S n) t
  | false :: t => runs_ok 0 t
  end.
Fixpoint run_end (n : nat) (bs : list bool) : nat :=
  match bs with [] => n | true :: t => run_end (S n) t | false :: t => run_end 0 t end.

Lemma runs_ok_app : forall a n b, runs_ok n (a ++ b) = runs_ok n a && runs_ok (run_end n a) b.
Proof.
  induction a as [|x a IH]; intros n b; [reflexivity|]. cbn [app runs_ok run_end]. destruct x.
  - rewrite IH. now rewrite andb_assoc.
  - apply IH.
Qed.
Lemma run_end_app : forall a n b, run_end n (a ++ b) = run_end (run_end n a) b.
Proof. induction a as [|x a IH]; intros n b; [reflexivity|]. cbn. destruct x; apply IH. Qed.

(** the check made by StreamSafe::next *)
Fixpoint ss_ok (n : nat) (s : list N) : bool :=
  match s with
  | [] => true
  | c :: t => Nat.leb (n + cl_leading c) 30 && ss_ok (count_next n c) t
  end.

Lemma ss_go_fix : forall s n, ss_ok n s = true -> stream_safe_go n s = s.
Proof.
  induction s as [|c t IH]; intros n H; [reflexivity|]. cbn [ss_ok stream_safe_go] in *.
  apply andb_prop in H. destruct H as [H1 H2]. unfold MAX_NONSTARTERS.
  assert (Nat.ltb 30 (n + cl_leading c) = false) as -> by lia. now rewrite IH.
Qed.

Lemma ss_go_length : forall s n, (length s <= length (stream_safe_go n s))%nat.
Proof.
  induction s as [|c t IH]; intro n; [cbn; lia|]. cbn [stream_safe_go].
  destruct (Nat.ltb _ _); cbn; [specialize (IH (count_next 0 c))|specialize (IH (count_next n c))]; lia.
Qed.

Lemma ss_go_fix_inv : forall s n, stream_safe_go n s = s -> ss_ok n s = true.
Proof.
  induction s as [|c t IH]; intros n H; [reflexivity|]. cbn [ss_ok stream_safe_go] in *. unfold MAX_NONSTARTERS in H.
  destruct (Nat.ltb 30 (n + cl_leading c)) eqn:E.
  - exfalso. apply (f_equal (@length N)) in H. cbn in H. pose proof (ss_go_length t (count_next 0 c)). lia.
  - injection H as H. rewrite IH by exact H. apply andb_true_intro. split; [|reflexivity]. apply Nat.leb_le. apply Nat.ltb_ge in E. exact E.
Qed.

Lemma leading_map : forall l, leading l = length l \/ exists a b, map nonstarter l = repeat true (leading l) ++ false :: a /\ b = a.
Proof.
  induction l as [|c l IH]; [left; reflexivity|]. cbn. destruct (nonstarter c) eqn:E.
  - destruct IH as [->|(a & b & -> & _)]; [left; reflexivity|]. right. exists a, a. auto.
  - right. cbn. eauto.
Qed.

Lemma leading_all : forall l, leading l = length l -> map nonstarter l = repeat true (length l).
Proof.
  induction l as [|c l IH]; [reflexivity|]. cbn. destruct (nonstarter c) eqn:E; [|discriminate].
  intro H. f_equal. apply IH. lia.
Qed.

Lemma run_end_true : forall k n, run_end n (repeat true k) = (n + k)%nat.
Proof. induction k; intro n; cbn; [lia|]. rewrite IHk. lia. Qed.
Lemma runs_ok_true : forall k n, (n <= 30)%nat -> runs_ok n (repeat true k) = Nat.leb (n + k) 30.
Proof.
  induction k; intros n H; cbn; [symmetry; apply Nat.leb_le; lia|].
  destruct (Nat.leb n 29) eqn:E.
  - cbn [andb]. rewrite IHk by lia. f_equal. lia.
  - cbn. symmetry. apply Nat.leb_gt. lia.
Qed.

Lemma leading_rev_false : forall l, (exists c, In c l /\ nonstarter c = false) -> forall n,
  run_end n (map nonstarter l) = leading (rev l).
Proof.
  intros l. induction l as [|c l IH] using rev_ind; intros (x & HI & HX) n; [destruct HI|].
  rewrite map_app, run_end_app, rev_app_distr. cbn. destruct (nonstarter c) eqn:E.
  - rewrite IH; [reflexivity|]. apply in_app_or in HI. destruct HI as [HI|[->|[]]]; [eauto|congruence].
  - reflexivity.
Qed.

Lemma leading_not_all : forall l, leading l <> length l -> exists c, In c l /\ nonstarter c = false.
Proof.
  induction l as [|c l IH]; cbn; intro H; [lia|]. destruct (nonstarter c) eqn:E; [|eauto].
  destruct IH as (x & ? & ?); [lia|eauto].
Qed.

Lemma count_next_run : forall n c, count_next n c = run_end n (pat c).
Proof.
  intros n c. unfold count_next, pat, cl_len. rewrite cl_leading_eq, cl_trailing_eq.
  destruct (Nat.eqb (leading (kd c)) (length (kd c))) eqn:E.
  - apply Nat.eqb_eq in E. rewrite leading_all by exact E. now rewrite run_end_true.
  - apply Nat.eqb_neq in E. symmetry. apply leading_rev_false. now apply leading_not_all.
Qed.

Lemma runs_ok_short : forall bs n, (n + length bs <= 30)%nat -> runs_ok n bs = true.
Proof.
  induction bs as [|b bs IH]; intros n H; [reflexivity|]. cbn [runs_ok length] in *. destruct b.
  - rewrite IH by lia. rewrite andb_true_r. apply Nat.leb_le. lia.
  - apply IH. lia.
Qed.

Lemma runs_ok_pat : forall n c, (n <= 30)%nat -> runs_ok n (pat c) = Nat.leb (n + cl_leading c) 30.
Proof.
  intros n c Hn. rewrite cl_leading_eq. pose proof (kd_len c) as HL. unfold pat.
  destruct (leading_map (kd c)) as [E|(a & b & E & _)].
  - rewrite leading_all by exact E. rewrite E. now apply runs_ok_true.
  - rewrite E, runs_ok_app, runs_ok_true by exact Hn.
    destruct (Nat.leb (n + leading (kd c)) 30); [|reflexivity]. cbn. apply runs_ok_short.
    apply (f_equal (@length bool)) in E. rewrite map_length, app_length in E. cbn in E. lia.
Qed.

Lemma run_end_le : forall bs n, runs_ok n bs = true -> (n <= 30)%nat -> (run_end n bs <= 30)%nat.
Proof.
  induction bs as [|b bs IH]; intros n H Hn; [exact Hn|]. cbn [runs_ok run_end] in *. destruct b.
  - apply andb_prop in H. destruct H. apply IH; [assumption|]. apply Nat.leb_le. assumption.
  - apply IH; [assumption|lia].
Qed.

Lemma ss_ok_runs : forall s n, (n <= 30)%nat -> ss_ok n s = runs_ok n (flat_map pat s).
Proof.
  induction s as [|c t IH]; intros n Hn; [reflexivity|]. cbn [ss_ok flat_map].
  rewrite runs_ok_app, runs_ok_pat by exact Hn.
  destruct (Nat.leb (n + cl_leading c) 30) eqn:E; [|reflexivity]. cbn [andb].
  rewrite count_next_run. apply IH. apply run_end_le; [|exact Hn]. now rewrite runs_ok_pat.
Qed.

(** The pattern is invariant under canonical equivalence. *)
Lemma pat_true : forall c, ccc c <> 0 -> pat c = repeat true (length (pat c)).
Proof.
  intros c H. pose proof (fun b => pat_nonstarter c b H) as P.
  induction (pat c) as [|b l IH]; [reflexivity|]. cbn. f_equal; [apply P; now left|]. apply IH. intros. apply P. now right.
Qed.

Lemma pat_ins : forall x l, flat_map pat (ins x l) = pat x ++ flat_map pat l.
Proof.
  intros x l. induction l as [|y t IH]; [reflexivity|]. cbn [ins].
  destruct (negb (ccc y =? 0) && (ccc y <? ccc x)) eqn:E; [|reflexivity].
  cbn [flat_map]. rewrite IH, !app_assoc. f_equal.
  rewrite (pat_true x), (pat_true y) by lia. rewrite <- !repeat_app. f_equal. lia.
Qed.

Lemma pat_order : forall l, flat_map pat (order l) = flat_map pat l.
Proof. intro l. rewrite order_fold. induction l as [|x l IH]; [reflexivity|]. cbn. now rewrite pat_ins, IH. Qed.

Lemma pat_nfd : forall s, flat_map pat (nfd s) = flat_map pat s.
Proof.
  intro s. unfold nfd. rewrite pat_order. induction s as [|c s IH]; [reflexivity|].
  cbn. rewrite flat_map_app, IH. now rewrite <- pat_cd.
Qed.

Lemma pat_nfc : forall s, flat_map pat (nfc s) = flat_map pat s.
Proof. intro s. rewrite <- pat_nfd, nfd_nfc. apply pat_nfd. Qed.

Lemma ss_ok_nfc : forall s, ss_ok 0 (nfc s) = ss_ok 0 s.
Proof. intro s. rewrite !ss_ok_runs by lia. now rewrite pat_nfc. Qed.

Lemma pat_CGJ : pat CGJ = [false].
Proof. vm_compute. reflexivity. Qed.

Lemma ss_ok_ss : forall s n, (n <= 30)%nat -> ss_ok n (stream_safe_go n s) = true.
Proof.
  assert (NX : forall n c, (n <= 30)%nat -> Nat.leb (n + cl_leading c) 30 = true -> (count_next n c <= 30)%nat).
  { intros n c Hn H. rewrite count_next_run. apply run_end_le; [|exact Hn]. now rewrite runs_ok_pat. }
  assert (C0 : cl_leading CGJ = 0%nat) by (vm_compute; reflexivity).
  assert (C1 : forall n, count_next n CGJ = 0%nat) by (intro; rewrite count_next_run, pat_CGJ; reflexivity).
  induction s as [|c t IH]; intros n Hn; [reflexivity|]. cbn [stream_safe_go]. unfold MAX_NONSTARTERS.
  pose proof (cl_leading_le c) as CL.
  destruct (Nat.ltb 30 (n + cl_leading c)) eqn:E; cbn [ss_ok].
  - rewrite C0, C1. assert (L0 : Nat.leb (0 + cl_leading c) 30 = true) by (apply Nat.leb_le; lia).
    rewrite L0, IH by (apply NX; [lia|exact L0]). apply andb_true_intro. split; [apply Nat.leb_le; lia|reflexivity].
  - assert (L0 : Nat.leb (n + cl_leading c) 30 = true) by (apply Nat.leb_le; apply Nat.ltb_ge in E; exact E).
    rewrite L0, IH by (apply NX; assumption). reflexivity.
Qed.

(** * The checker decides exactly the normalized stream-safe texts. *)
Definition nfc_ss (s : list N) : Prop := nfc s = s /\ stream_safe s = s.

Lemma next_le : forall n c, (n <= 30)%nat -> Nat.leb (n + cl_leading c) 30 = true -> (count_next n c <= 30)%nat.
Proof. intros n c Hn H. rewrite count_next_run. apply run_end_le; [|exact Hn]. now rewrite runs_ok_pat. Qed.

Lemma ascii_facts : forall c, c <= 127 -> ccc c = 0 /\ cl_leading c = 0%nat /\ (forall n, count_next n c = 0%nat) /\ yes c.
Proof.
  intros c A. assert (CC : ccc c = 0) by now apply ccc_ascii.
  repeat split; auto.
  - unfold cl_leading. assert (c <=? 127 = true) as -> by lia. reflexivity.
  - intro n. rewrite count_next_run. unfold pat. rewrite kd_ascii by exact A. cbn. unfold nonstarter. rewrite CC. reflexivity.
  - now apply qc_ascii.
Qed.

Lemma quick_sound : forall s lc n r, (n <= 30)%nat -> quick_check lc n r s <> No ->
  ordered s /\ ge_hd lc s /\ ss_ok n s = true /\ Forall notno s /\ (quick_check lc n r s = Yes -> Forall yes s /\ r = Yes).
Proof.
  induction s as [|ch t IH]; intros lc n r Hn H; cbn [quick_check] in *.
  - cbn. repeat split; auto; try constructor.
  - destruct (ch <=? 127) eqn:EA.
    + destruct (ascii_facts ch) as (CC & CL & CN & HY); [lia|].
      destruct (IH 0 0%nat r (Nat.le_0_l _) H) as (O & G & S & F & Y).
      split; [|split; [|split; [|split]]].
      * now apply ordered_starter_cons.
      * left. exact CC.
      * cbn [ss_ok]. rewrite CL, CN, S, andb_true_r. apply Nat.leb_le. lia.
      * constructor; [now apply yes_notno|exact F].
      * intro Q. destruct (Y Q). split; [constructor; auto|assumption].
    + destruct ((ccc ch <? lc) && negb (ccc ch =? 0)) eqn:E1; [congruence|].
      unfold MAX_NONSTARTERS in *.
      assert (HQ : qc_nfc ch <> No) by (destruct (qc_nfc ch); congruence).
      set (r' := match qc_nfc ch with Maybe => Maybe | _ => r end) in *.
      assert (H' : (if Nat.ltb 30 (n + cl_leading ch) then No else quick_check (ccc ch) (count_next n ch) r' t) <> No
                   /\ ((if Nat.ltb 30 (n + cl_leading ch) then No else quick_check (ccc ch) (count_next n ch) r' t) =
                        match qc_nfc ch with
                        | No => No
                        | _ => if Nat.ltb 30 (n + cl_leading ch) then No else quick_check (ccc ch) (count_next n ch) r' t end)).
      { subst r'. destruct (qc_nfc ch); try congruence; auto. }
      destruct H' as [H1 H2].
      assert (H3 : forall A B C : Prop, (A -> match qc_nfc ch with
                        | No => No
                        | _ => if Nat.ltb 30 (n + cl_leading ch) then No else quick_check (ccc ch) (count_next n ch) r' t end = Yes -> B) ->
            (A -> quick_check (ccc ch) (count_next n ch) r' t = Yes -> B) \/ True) by auto. clear H3.
      destruct (Nat.ltb 30 (n + cl_leading ch)) eqn:E2; [congruence|].
      assert (L0 : Nat.leb (n + cl_leading ch) 30 = true) by (apply Nat.leb_le; apply Nat.ltb_ge in E2; exact E2).
      destruct (IH (ccc ch) (count_next n ch) r' (next_le _ _ Hn L0) H1) as (O & G & S & F & Y).
      split; [|split; [|split; [|split]]].
      * split; [|exact O]. exact G.
      * cbn. lia.
      * cbn [ss_ok]. now rewrite L0, S.
      * constructor; [exact HQ|exact F].
      * intro Q. destruct (qc_nfc ch) eqn:EQ; try congruence; subst r'; destruct (Y Q) as [Y1 Y2]; try congruence.
        split; [constructor; auto|assumption].
Qed.

Lemma quick_complete : forall s lc n r, (n <= 30)%nat -> ordered s -> ge_hd lc s -> ss_ok n s = true -> Forall notno s -> r <> No ->
  quick_check lc n r s <> No.
Proof.
  induction s as [|ch t IH]; intros lc n r Hn HO HG HS HF HR; cbn [quick_check]; [exact HR|].
  inversion HF as [|? ? F1 F2]; subst. cbn [ss_ok] in HS. apply andb_prop in HS. destruct HS as [S1 S2].
  destruct (ch <=? 127) eqn:EA.
  - destruct (ascii_facts ch) as (CC & CL & CN & HY); [lia|].
    apply IH; auto; [lia|exact (ordered_tl _ _ HO)| |now rewrite CN in S2].
    destruct t as [|y t]; cbn; [exact I|]. right. lia.
  - cbn in HG. assert ((ccc ch <? lc) && negb (ccc ch =? 0) = false) as -> by lia.
    unfold MAX_NONSTARTERS. assert (E2 : Nat.ltb 30 (n + cl_leading ch) = false) by (apply Nat.ltb_ge, Nat.leb_le; exact S1).
    rewrite E2. pose proof (next_le _ _ Hn S1). pose proof (ordered_tl _ _ HO). pose proof (ge_hd_ordered _ _ HO).
    unfold notno in F1. destruct (qc_nfc ch); [apply IH; auto|congruence|apply IH; auto; discriminate].
Qed.

Theorem is_nfc_stream_safe_spec : forall s, is_nfc_stream_safe s = true <-> nfc_ss s.
Proof.
  intro s. unfold is_nfc_stream_safe, is_nfc_stream_safe_quick, nfc_ss. split.
  - intro H. destruct (quick_check 0 0 Yes s) eqn:E; [|discriminate|].
    + destruct (quick_sound s 0 0 Yes) as (O & _ & S & _ & Y); [lia|congruence|].
      destruct (Y E) as [Y1 _]. split; [now apply nfc_yes|]. unfold stream_safe. now apply ss_go_fix.
    + destruct (quick_sound s 0 0 Yes) as (O & _ & S & _ & _); [lia|congruence|].
      assert (SS : stream_safe s = s) by (unfold stream_safe; now apply ss_go_fix).
      rewrite SS in H. apply list_eqb_eq in H. auto.
  - intros [H1 H2]. destruct (nfc_stable_facts _ H1) as [O F].
    assert (Q : quick_check 0 0 Yes s <> No).
    { apply quick_complete; auto; [lia|destruct s; [exact I|right; lia]|now apply ss_go_fix_inv|discriminate]. }
    destruct (quick_check 0 0 Yes s); [reflexivity|congruence|]. rewrite H2, H1. apply list_eqb_refl.
Qed.

(** * Conversion always yields checked text; the check is substring closed. *)
Theorem nfc_ss_conv : forall s, nfc_ss (nfc (stream_safe s)).
Proof.
  intro s. split; [apply nfc_idem|]. unfold stream_safe. apply ss_go_fix. rewrite ss_ok_nfc. apply ss_ok_ss. lia.
Qed.

Lemma runs_ok_mono : forall bs n m, (m <= n)%nat -> runs_ok n bs = true -> runs_ok m bs = true.
Proof.
  induction bs as [|b bs IH]; intros n m H HR; [reflexivity|]. cbn [runs_ok] in *. destruct b; [|exact HR].
  apply andb_prop in HR. destruct HR as [H1 H2]. apply andb_true_intro. split; [apply Nat.leb_le; apply Nat.leb_le in H1; lia|].
  apply (IH (S n)); [lia|exact H2].
Qed.

Lemma ss_ok_app : forall a b, ss_ok 0 (a ++ b) = true -> ss_ok 0 a = true /\ ss_ok 0 b = true.
Proof.
  intros a b H. rewrite !ss_ok_runs in * by lia. rewrite flat_map_app, runs_ok_app in H. apply andb_prop in H.
  destruct H as [H1 H2]. split; [exact H1|]. eapply runs_ok_mono; [|exact H2]. lia.
Qed.

Lemma ss_ok_iff : forall s, stream_safe s = s <-> ss_ok 0 s = true.
Proof. intro s. split; [apply ss_go_fix_inv|apply ss_go_fix]. Qed.

Theorem nfc_ss_app : forall a b, nfc_ss (a ++ b) -> nfc_ss a /\ nfc_ss b.
Proof.
  intros a b [H1 H2]. rewrite ss_ok_iff in H2. apply ss_ok_app in H2. destruct H2 as [S1 S2].
  repeat split; try (now apply ss_ok_iff); [eapply nfc_prefix|eapply nfc_suffix]; eassumption.
Qed.
