(** An executable test for the sequences of the table, used to show concrete
    cuts. *)
From Coq Require Import NArith Arith List Bool Lia ZifyBool ZifyNat ZifyN.
From Verif Require Import Base TextUtils SpecText IsoFacts SpecEscape.
Import ListNotations.
Local Open Scope N_scope.
Arguments N.leb : simpl never.
Arguments N.ltb : simpl never.
Arguments N.eqb : simpl never.

Fixpoint strip (x : N) (s : list N) : list N := match s with c :: t => if c =? x then strip x t else s | [] => [] end.
Definition paramb (c : N) : bool := (0x20 <=? c) && (c <=? 0x3F).
Definition finalb (can : bool) (c : N) : bool := ((0x40 <=? c) && (c <=? 0x7E)) || (can && (c =? 0x18)).
Definition oscb (c : N) : bool := negb ((c =? 0x7) || (c =? 0x18) || (c =? 0x1B)).
(** all but the last satisfy [p], the last satisfies [p] or [q] *)
Fixpoint upto (p q : N -> bool) (s : list N) : bool :=
  match s with [] => true | [c] => p c || q c | c :: t => p c && upto p q t end.
Definition tail_row (can : bool) (s : list N) : bool :=
  match s with
  | [] => true
  | 0x5B :: t => upto paramb (finalb can) t || match t with 0x5B :: [] => true | [0x5B; c] => c <=? 0x7F | _ => false end
  | 0x5D :: t => upto oscb (fun c => (c =? 0x7) || (c =? 0x18)) t || (match t with [] => finalb can 0x5D | _ => false end)
  | [c] => finalb can c
  | _ => false
  end.
Definition rowb (can : bool) (m : list N) : bool :=
  match m with
  | [] => false
  | c :: t =>
      if c =? 0xD then list_eqb t [] || list_eqb t [0xA]
      else if c =? 0xC then let r := strip 0xC m in list_eqb r [] || list_eqb r [0xA] || list_eqb r [0xD] || list_eqb r [0xD; 0xA]
      else if c =? 0x1B then tail_row can (strip 0x1B m)
      else list_eqb t []
  end.

Lemma strip_run : forall x f t, Forall (fun c => c = x) f -> strip x (f ++ t) = strip x t.
Proof. intros x f t H. induction H as [|c f Hc H IH]; [reflexivity|]. cbn. subst c. now rewrite N.eqb_refl. Qed.
Lemma upto_snoc : forall (p q : N -> bool) l c, Forall (fun x => p x = true) l -> p c = true \/ q c = true -> upto p q (l ++ [c]) = true.
Proof.
  intros p q l c H HC. induction H as [|x l Hx H IH]; cbn.
  - destruct HC as [-> | ->]; [reflexivity|apply orb_true_r].
  - rewrite Hx, IH. destruct (l ++ [c]) eqn:E; [destruct l; discriminate|reflexivity].
Qed.
Lemma upto_all : forall (p q : N -> bool) l, Forall (fun x => p x = true) l -> upto p q l = true.
Proof. intros p q l H. destruct l as [|c l _] using rev_ind; [reflexivity|]. apply Forall_app in H. destruct H as [H1 H2]. inversion H2; subst. apply upto_snoc; auto. Qed.
Lemma rowb_ff : forall can f t, run_of 0xC f -> (t = [] \/ t = [0xA] \/ t = [0xD] \/ t = [0xD; 0xA]) -> rowb can (f ++ t) = true.
Proof.
  intros can f t [HN HF] HT. destruct f as [|c f]; [congruence|]. inversion HF as [|? ? HC HF']; subst c.
  unfold rowb. cbn [app]. change (0xC =? 0xD) with false. change (0xC =? 0xC) with true. cbn [strip]. change (0xC =? 0xC) with true.
  cbv zeta. rewrite strip_run by exact HF'. destruct HT as [->|[->|[->| ->]]]; reflexivity.
Qed.
Lemma rowb_esc : forall can e t, run_of 0x1B e -> tail_row can t = true -> (forall c u, t = c :: u -> c <> 0x1B) -> rowb can (e ++ t) = true.
Proof.
  intros can e t [HN HF] HT HE. destruct e as [|c e]; [congruence|]. inversion HF as [|? ? HC HF']; subst c.
  unfold rowb. cbn [app]. change (0x1B =? 0xD) with false. change (0x1B =? 0xC) with false. change (0x1B =? 0x1B) with true. cbn [strip]. change (0x1B =? 0x1B) with true.
  cbn iota. rewrite strip_run by exact HF'. destruct t as [|c u]; [reflexivity|]. cbn [strip]. destruct (N.eqb_spec c 0x1B) as [E|_]; [exfalso; exact (HE _ _ eq_refl E)|exact HT].
Qed.
Lemma params : forall l, Forall parameter l -> Forall (fun x => paramb x = true) l.
Proof. intros l H. eapply Forall_impl; [|exact H]. intros c Hc. unfold parameter in Hc. unfold paramb. lia. Qed.
Lemma oscs : forall l, Forall osc_char l -> Forall (fun x => oscb x = true) l.
Proof. intros l H. eapply Forall_impl; [|exact H]. intros c Hc. unfold osc_char in Hc. unfold oscb. lia. Qed.
Lemma finals : forall can c, final can c -> finalb can c = true.
Proof. intros can c [H|[-> ->]]; unfold finalb; [lia|reflexivity]. Qed.
Lemma row_rowb : forall can rep m r, row can rep m r -> rowb can m = true.
Proof.
  intros can rep m r H. destruct H.
  - reflexivity.
  - reflexivity.
  - apply rowb_ff; auto.
  - apply rowb_ff; auto.
  - apply rowb_ff; auto.
  - rewrite <- (app_nil_r f). apply rowb_ff; auto.
  - apply rowb_esc; [assumption|reflexivity|intros ? ? [= <- _]; discriminate].
  - apply rowb_esc; [assumption| |intros ? ? [= <- _]; discriminate]. cbn [tail_row]. apply orb_true_intro. right. lia.
  - apply rowb_esc; [assumption| |intros ? ? [= <- _]; discriminate]. cbn [tail_row]. rewrite upto_all by now apply params. reflexivity.
  - apply rowb_esc; [assumption| |intros ? ? [= <- _]; discriminate]. cbn [tail_row]. rewrite upto_snoc; [reflexivity|now apply params|right; now apply finals].
  - apply rowb_esc; [assumption| |intros ? ? [= <- _]; discriminate]. cbn [tail_row]. rewrite upto_all by now apply oscs. reflexivity.
  - apply rowb_esc; [assumption| |intros ? ? [= <- _]; discriminate]. cbn [tail_row]. rewrite upto_snoc; [reflexivity|now apply oscs|right; unfold osc_end in *; lia].
  - apply rowb_esc; [assumption| |].
    + apply finals in H0. unfold tail_row. destruct (N.eqb_spec c 0x5B) as [->|N1]; [reflexivity|]. destruct (N.eqb_spec c 0x5D) as [->|N2]; [reflexivity|].
      destruct c as [|p]; [exact H0|]. do 7 (destruct p as [p|p|]; try exact H0; try (exfalso; congruence)).
    + intros c' u [= <- _] ->. destruct H0 as [H0|[_ H0]]; lia.
  - rewrite <- (app_nil_r e). apply rowb_esc; [assumption|reflexivity|discriminate].
  - unfold rowb. apply N.eqb_neq in H, H0, H1. now rewrite H, H0, H1.
Qed.

Lemma longest_check : forall can rep m text,
  forallb (fun k => negb (rowb can (firstn k text))) (seq (S (length m)) (length text - length m)) = true -> longest can rep m text.
Proof.
  intros can rep m text H m' r' rest' R E. apply row_rowb in R. destruct (Nat.le_gt_cases (length m') (length m)) as [L|L]; [exact L|exfalso].
  rewrite forallb_forall in H. assert (LT : (length m' <= length text)%nat) by (rewrite E, app_length; lia).
  specialize (H (length m')). rewrite E, firstn_app, firstn_all, Nat.sub_diag, app_nil_r in H. rewrite R in H. discriminate H. rewrite <- E. apply in_seq. lia.
Qed.

(** A row for one character other than CR, FF and ESC is its own. *)
Lemma run_head_eq : forall x l t c, run_of x l -> l ++ t = [c] -> c = x.
Proof. intros x [|y l] t c [H F] E; [now elim H|]. injection E as -> _. now inversion F. Qed.
Lemma row_single : forall can rep c r, row can rep [c] r -> c <> 0xD -> c <> 0xC -> c <> 0x1B -> r = rep c.
Proof.
  intros can rep c r H H1 H2 H3. remember [c] as m eqn:E. destruct H; try discriminate E; try (injection E as <-); try reflexivity; try (now elim H1);
    exfalso; match goal with K : run_of _ ?e |- _ =>
      match type of E with e = _ => rewrite <- (app_nil_r e) in E | _ => idtac end; pose proof (run_head_eq _ _ _ _ K E); congruence end.
Qed.

Lemma no_cgj_unguarded : forall s, forallb (fun c => negb (c =? 0x34F)) s = true -> unguarded_text s.
Proof.
  intros s H a c b E. rewrite E, forallb_app in H. apply andb_prop in H as [_ H]. discriminate H.
Qed.
