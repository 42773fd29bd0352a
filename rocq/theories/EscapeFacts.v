(** The reader's state machine performs leftmost-longest replacement. *)
From Coq Require Import NArith Arith List Bool Lia ZifyBool ZifyNat ZifyN.
From Verif Require Import Base Ucd Norm Chars TextTables TextUtils Utf8 Input SpecRead SpecEscape UcdFacts NormFacts CharFacts SpecText TextFacts PipelineFacts IsoFacts Utf8Facts ReadFacts ReadInv ReadSession ReadChunk.
Import ListNotations.
Local Open Scope N_scope.
Arguments N.add : simpl never.
Arguments N.leb : simpl never.
Arguments N.ltb : simpl never.
Arguments N.eqb : simpl never.
Local Opaque pipeline replace.

(** * The grammar *)
(** maximal runs *)
Lemma run_cut : forall (P : N -> Prop) (a a' x x' : list N), Forall P a -> Forall P a' -> (forall c t, x = c :: t -> ~ P c) ->
  a ++ x = a' ++ x' -> (a = a' /\ x = x') \/ ((length a' < length a)%nat /\ exists c t, x' = c :: t /\ P c).
Proof.
  induction a as [|c a IH]; intros a' x x' HA HA' HX E.
  - destruct a' as [|c' a']; [left; auto|]. cbn in E. subst x. inversion HA'; subst. exfalso. eapply HX; eauto.
  - destruct a' as [|c' a']; cbn in E.
    + right. split; [cbn; lia|]. subst x'. inversion HA; subst. eauto.
    + injection E as <- E. inversion HA; inversion HA'; subst. destruct (IH _ _ _ H2 H6 HX E) as [[-> ->]|[L R]]; [left; auto|right]. split; [cbn; lia|exact R].
Qed.

Section Grammar.
  Variables (can : bool) (rep : N -> list N).
  Notation row := (row can rep).

  Lemma run_head : forall x l, run_of x l -> exists t, l = x :: t /\ Forall (fun c => c = x) t.
  Proof. intros x [|c l] [H1 H2]; [congruence|]. inversion H2; subst. eauto. Qed.
  Lemma row_nonnil : forall m r, row m r -> m <> [].
  Proof.
    intros m r H E. destruct H; try discriminate;
    match goal with R : run_of _ _ |- _ => destruct (run_head _ _ R) as (? & -> & _) end; discriminate.
  Qed.
  Definition row_rep (m : list N) : list N :=
    match m with
    | [] => []
    | c :: _ => if c =? 0xD then [0xA] else if c =? 0xC then (if forallb (fun c => c =? 0xC) m then [0x20] else [0xA]) else if c =? 0x1B then [] else rep c
    end.
  Lemma run_forallb : forall x l, Forall (fun c => c = x) l -> forallb (fun c => c =? x) l = true.
  Proof. intros x l H. apply forallb_forall. rewrite Forall_forall in H. intros y HY. rewrite (H y HY). apply N.eqb_refl. Qed.
  Lemma row_det : forall m r, row m r -> r = row_rep m.
  Proof.
    intros m r H. destruct H; try reflexivity;
    try (match goal with R : run_of _ _ |- _ => destruct (run_head _ _ R) as (t & -> & HT) end);
    try reflexivity.
    - cbn [row_rep app]. change (0xC =? 0xD) with false. change (0xC =? 0xC) with true. cbn iota.
      change (0xC :: t ++ [0xD; 0xA]) with ((0xC :: t) ++ [0xD; 0xA]). rewrite forallb_app. cbn [forallb]. change (0xD =? 0xC) with false. now rewrite andb_false_r.
    - cbn [row_rep app]. change (0xC =? 0xD) with false. change (0xC =? 0xC) with true. cbn iota.
      change (0xC :: t ++ [0xA]) with ((0xC :: t) ++ [0xA]). rewrite forallb_app. cbn [forallb]. change (0xA =? 0xC) with false. now rewrite andb_false_r.
    - cbn [row_rep app]. change (0xC =? 0xD) with false. change (0xC =? 0xC) with true. cbn iota.
      change (0xC :: t ++ [0xD]) with ((0xC :: t) ++ [0xD]). rewrite forallb_app. cbn [forallb]. change (0xD =? 0xC) with false. now rewrite andb_false_r.
    - cbn [row_rep]. change (0xC =? 0xD) with false. change (0xC =? 0xC) with true. cbn iota. rewrite run_forallb; [reflexivity|]. now constructor.
    - cbn. destruct (c =? 0xD) eqn:E1; [lia|]. destruct (c =? 0xC) eqn:E2; [lia|]. destruct (c =? 0x1B) eqn:E3; [lia|]. reflexivity.
  Qed.

  Lemma app_prefix_len : forall A (a b c d : list A), a ++ b = c ++ d -> length a = length c -> a = c /\ b = d.
  Proof.
    induction a as [|x a IH]; intros b [|y c] d H L; cbn in *; try discriminate; auto. injection H as -> H.
    destruct (IH b c d H) as [-> ->]; auto.
  Qed.
  Lemma replaced_det : forall s rs, replaced can rep s rs -> forall rs', replaced can rep s rs' -> rs = rs'.
  Proof.
    induction 1 as [|m r rest rs HR HL HT IH]; intros rs' H'.
    - inversion H' as [|m r rest rs HR _ _ E]; [reflexivity|]. apply app_eq_nil in E. destruct E as [-> _]. now apply row_nonnil in HR.
    - inversion H' as [E|m' r' rest' rs'' HR' HL' HT' E]; subst.
      + symmetry in E. apply app_eq_nil in E. destruct E as [-> _]. now apply row_nonnil in HR.
      + assert (L : length m = length m').
        { apply Nat.le_antisymm; [apply (HL' m r rest HR E)|]. apply (HL m' r' rest' HR'). now symmetry. }
        destruct (app_prefix_len _ _ _ _ _ E (eq_sym L)) as [-> ->]. rewrite (row_det _ _ HR), (row_det _ _ HR'). f_equal. auto.
  Qed.

End Grammar.

(** * Longest matches, case by case *)
Section Longest.
  Variables (can : bool) (rep : N -> list N).
  Notation row := (row can rep).
  Notation longest := (longest can rep).

  Ltac headed := repeat match goal with
    | R : run_of _ ?l |- _ => is_var l; let t := fresh "t" in let H := fresh "H" in destruct (run_head _ _ R) as (t & -> & H); clear R
    end.

  Lemma long_char : forall c t, c <> 0xD -> c <> 0xC -> c <> 0x1B -> longest [c] (c :: t).
  Proof.
    intros c t H1 H2 H3 m' r' rest' HR E. destruct HR; headed; cbn in E; injection E as -> E; try congruence. cbn. lia.
  Qed.
  Lemma long_crlf : forall t, longest [0xD; 0xA] (0xD :: 0xA :: t).
  Proof. intros t m' r' rest' HR E. destruct HR; headed; cbn in E; try discriminate; cbn; lia. Qed.
  Lemma long_cr : forall t, (forall u, t <> 0xA :: u) -> longest [0xD] (0xD :: t).
  Proof.
    intros t H m' r' rest' HR E. destruct HR; headed; cbn in E; try discriminate; cbn; try lia.
    injection E as E. exfalso. eapply H; eauto.
  Qed.

  Definition not_head (x : N) (l : list N) : Prop := forall c t, l = c :: t -> c <> x.
  (** rows matching a text that starts with form feeds *)
  Lemma ff_rows : forall f x m r rest, run_of 0xC f -> not_head 0xC x -> row m r -> f ++ x = m ++ rest ->
    (length m <= length f)%nat \/ exists y, m = f ++ y /\ x = y ++ rest /\ (y = [0xD; 0xA] \/ y = [0xA] \/ y = [0xD]).
  Proof.
    intros f x m r rest HF HX HR E.
    assert (G : forall g y, run_of 0xC g -> y <> [] -> not_head 0xC y -> f ++ x = (g ++ y) ++ rest -> g = f /\ x = y ++ rest).
    { intros g y HG HY HN EG. rewrite <- app_assoc in EG. destruct HF as [_ HF]. destruct HG as [_ HG].
      destruct (run_cut (fun c => c = 0xC) f g x (y ++ rest) HF HG) as [[-> ->]|[_ (c & t & E1 & ->)]]; auto.
      destruct y as [|z y]; [congruence|]. injection E1 as -> E1. exfalso. exact (HN _ _ eq_refl eq_refl). }
    assert (HD : forall m0 t0, row m0 r -> m0 = 0xC :: t0 -> True) by auto. clear HD.
    destruct HR as [| |g HG|g HG|g HG|g HG|e HG|e c HG HC|e p HG HP|e p c HG HP HC|e b HG HB|e b c HG HB HC|e c HG HC|e HG|c H1 H2 H3].
    - destruct (run_head _ _ HF) as (t & -> & _). discriminate.
    - destruct (run_head _ _ HF) as (t & -> & _). discriminate.
    - right. destruct (G g [0xD; 0xA]) as [-> ->]; auto; [discriminate|intros ? ? K; injection K as <- _; discriminate|]. eauto 6.
    - right. destruct (G g [0xA]) as [-> ->]; auto; [discriminate|intros ? ? K; injection K as <- _; discriminate|]. eauto 6.
    - right. destruct (G g [0xD]) as [-> ->]; auto; [discriminate|intros ? ? K; injection K as <- _; discriminate|]. eauto 6.
    - left. destruct HF as [_ HF]. destruct HG as [_ HG]. destruct (run_cut (fun c => c = 0xC) f g x rest HF HG HX E) as [[-> _]|[L _]]; lia.
    - destruct (run_head _ _ HF) as (t & -> & _). destruct (run_head _ _ HG) as (u & -> & _). discriminate.
    - destruct (run_head _ _ HF) as (t & -> & _). destruct (run_head _ _ HG) as (u & -> & _). discriminate.
    - destruct (run_head _ _ HF) as (t & -> & _). destruct (run_head _ _ HG) as (u & -> & _). discriminate.
    - destruct (run_head _ _ HF) as (t & -> & _). destruct (run_head _ _ HG) as (u & -> & _). discriminate.
    - destruct (run_head _ _ HF) as (t & -> & _). destruct (run_head _ _ HG) as (u & -> & _). discriminate.
    - destruct (run_head _ _ HF) as (t & -> & _). destruct (run_head _ _ HG) as (u & -> & _). discriminate.
    - destruct (run_head _ _ HF) as (t & -> & _). destruct (run_head _ _ HG) as (u & -> & _). discriminate.
    - destruct (run_head _ _ HF) as (t & -> & _). destruct (run_head _ _ HG) as (u & -> & _). discriminate.
    - destruct (run_head _ _ HF) as (t & -> & _). injection E as E _. congruence.
  Qed.
  Lemma long_ff : forall f x, run_of 0xC f -> not_head 0xC x -> not_head 0xD x -> not_head 0xA x -> longest f (f ++ x).
  Proof.
    intros f x HF H1 H2 H3 m r rest HR E. destruct (ff_rows _ _ _ _ _ HF H1 HR E) as [L|(y & -> & -> & HY)]; [exact L|].
    exfalso. destruct HY as [-> |[-> | ->]]; [eapply H2|eapply H3|eapply H2]; reflexivity.
  Qed.
  Lemma long_ff_lf : forall f x, run_of 0xC f -> longest (f ++ [0xA]) (f ++ 0xA :: x).
  Proof.
    intros f x HF m r rest HR E. assert (HX : not_head 0xC (0xA :: x)) by (intros ? ? K; injection K as <- _; discriminate).
    destruct (ff_rows _ _ _ _ _ HF HX HR E) as [L|(y & -> & E2 & HY)]; rewrite ?app_length; cbn [length]; [lia|].
    destruct HY as [-> |[-> | ->]]; try discriminate. cbn. lia.
  Qed.
  Lemma long_ff_crlf : forall f x, run_of 0xC f -> longest (f ++ [0xD; 0xA]) (f ++ 0xD :: 0xA :: x).
  Proof.
    intros f x HF m r rest HR E. assert (HX : not_head 0xC (0xD :: 0xA :: x)) by (intros ? ? K; injection K as <- _; discriminate).
    destruct (ff_rows _ _ _ _ _ HF HX HR E) as [L|(y & -> & E2 & HY)]; rewrite ?app_length; cbn [length]; [lia|].
    destruct HY as [-> |[-> | ->]]; cbn; lia.
  Qed.
  Lemma long_ff_cr : forall f x, run_of 0xC f -> not_head 0xA x -> longest (f ++ [0xD]) (f ++ 0xD :: x).
  Proof.
    intros f x HF HX m r rest HR E. assert (HX' : not_head 0xC (0xD :: x)) by (intros ? ? K; injection K as <- _; discriminate).
    destruct (ff_rows _ _ _ _ _ HF HX' HR E) as [L|(y & -> & E2 & HY)]; rewrite ?app_length; cbn [length]; [lia|].
    destruct HY as [-> |[-> | ->]]; try discriminate; [|cbn; lia]. injection E2 as E2. exfalso. eapply HX; eauto.
  Qed.

  (** rows matching a text that starts with escapes *)
  Inductive after_esc : list N -> Prop :=
  | ae_linux : after_esc [0x5B; 0x5B]
  | ae_linux_char : forall c, c <= 0x7F -> after_esc [0x5B; 0x5B; c]
  | ae_csi : forall p, Forall parameter p -> after_esc (0x5B :: p)
  | ae_csi_final : forall p c, Forall parameter p -> final can c -> after_esc (0x5B :: p ++ [c])
  | ae_osc : forall b, Forall osc_char b -> after_esc (0x5D :: b)
  | ae_osc_end : forall b c, Forall osc_char b -> osc_end c -> after_esc (0x5D :: b ++ [c])
  | ae_final : forall c, final can c -> after_esc [c].
  Lemma final_not_esc : forall c, final can c -> c <> 0x1B.
  Proof using can. clear rep. intros c [H|[_ H]]; lia. Qed.
  Lemma after_esc_head : forall y, after_esc y -> y <> [] /\ not_head 0x1B y.
  Proof using can. clear rep.
    intros y H. destruct H; split; try discriminate; intros z t E; injection E as <- _; try discriminate. now apply final_not_esc.
  Qed.
  Lemma after_esc_row : forall e y, run_of 0x1B e -> after_esc y -> row (e ++ y) [].
  Proof. intros e y HE H. destruct H; now constructor. Qed.

  Lemma esc_rows : forall e x m r rest, run_of 0x1B e -> not_head 0x1B x -> row m r -> e ++ x = m ++ rest ->
    (length m <= length e)%nat \/ exists y, m = e ++ y /\ x = y ++ rest /\ after_esc y.
  Proof.
    intros e x m r rest HF HX HR E.
    assert (G : forall g y, run_of 0x1B g -> after_esc y -> e ++ x = (g ++ y) ++ rest -> exists y0, g ++ y = e ++ y0 /\ x = y0 ++ rest /\ after_esc y0).
    { intros g y HG HY EG. destruct (after_esc_head _ HY) as [HN1 HN]. rewrite <- app_assoc in EG. destruct HF as [_ HF]. destruct HG as [_ HG].
      destruct (run_cut (fun c => c = 0x1B) e g x (y ++ rest) HF HG HX EG) as [[-> ->]|[_ (c & t & E1 & ->)]]; [eauto|].
      destruct y as [|z y]; [congruence|]. injection E1 as -> E1. exfalso. exact (HN _ _ eq_refl eq_refl). }
    destruct HR as [| |g HG|g HG|g HG|g HG|e' HG|e' c HG HC|e' p HG HP|e' p c HG HP HC|e' b HG HB|e' b c HG HB HC|e' c HG HC|e' HG|c H1 H2 H3].
    - destruct (run_head _ _ HF) as (t & -> & _). discriminate.
    - destruct (run_head _ _ HF) as (t & -> & _). discriminate.
    - destruct (run_head _ _ HF) as (t & -> & _). destruct (run_head _ _ HG) as (u & -> & _). discriminate.
    - destruct (run_head _ _ HF) as (t & -> & _). destruct (run_head _ _ HG) as (u & -> & _). discriminate.
    - destruct (run_head _ _ HF) as (t & -> & _). destruct (run_head _ _ HG) as (u & -> & _). discriminate.
    - destruct (run_head _ _ HF) as (t & -> & _). destruct (run_head _ _ HG) as (u & -> & _). discriminate.
    - right. apply (G e' [0x5B; 0x5B]); auto. constructor.
    - right. apply (G e' [0x5B; 0x5B; c]); auto. now constructor.
    - right. apply (G e' (0x5B :: p)); auto. now constructor.
    - right. apply (G e' (0x5B :: p ++ [c])); auto. now constructor.
    - right. apply (G e' (0x5D :: b)); auto. now constructor.
    - right. apply (G e' (0x5D :: b ++ [c])); auto. now constructor.
    - right. apply (G e' [c]); auto. now constructor.
    - left. destruct HF as [_ HF]. destruct HG as [_ HG]. destruct (run_cut (fun c => c = 0x1B) e e' x rest HF HG HX E) as [[-> _]|[L _]]; lia.
    - destruct (run_head _ _ HF) as (t & -> & _). injection E as E _. congruence.
  Qed.
  (** so it is enough to bound what follows the escapes *)
  Lemma long_esc : forall e y x, run_of 0x1B e -> not_head 0x1B (y ++ x) ->
    (forall y' rest, after_esc y' -> y ++ x = y' ++ rest -> (length y' <= length y)%nat) -> longest (e ++ y) (e ++ y ++ x).
  Proof.
    intros e y x HE HX HB m r rest HR E. destruct (esc_rows _ _ _ _ _ HE HX HR E) as [L|(y' & -> & E2 & HY)]; rewrite !app_length; [lia|].
    specialize (HB _ _ HY E2). lia.
  Qed.

  Lemma bound_none : forall x, (forall c t, x = c :: t -> c <> 0x5B /\ c <> 0x5D /\ ~ final can c) ->
    forall y' rest, after_esc y' -> x = y' ++ rest -> (length y' <= 0)%nat.
  Proof using can. clear rep.
    intros x H y' rest HY E. destruct HY; cbn in E; destruct (H _ _ E) as (A & B & C); congruence.
  Qed.
  Lemma bound_final : forall c x, c <> 0x5B -> c <> 0x5D -> forall y' rest, after_esc y' -> [c] ++ x = y' ++ rest -> (length y' <= 1)%nat.
  Proof using can. clear rep. intros c x H1 H2 y' rest HY E. destruct HY; cbn in E; injection E as -> E; try congruence. cbn. lia. Qed.
  Lemma bound_linux1 : forall c x, forall y' rest, after_esc y' -> [0x5B; 0x5B; c] ++ x = y' ++ rest -> (length y' <= 3)%nat.
  Proof using can. clear rep.
    intros c x y' rest HY E. destruct HY as [|d HD|p HP|p d HP HD|b HB|b d HB HD|d HD]; cbn [length]; try lia; cbn in E; injection E as E; try discriminate.
    - destruct p as [|z p]; cbn; [lia|]. injection E as <- E. inversion HP. unfold parameter in *. lia.
    - destruct p as [|z p]; cbn; [lia|]. injection E as <- E. inversion HP. unfold parameter in *. lia.
  Qed.
  Lemma bound_linux : forall x, (forall c t, x = c :: t -> ~ c <= 0x7F) -> forall y' rest, after_esc y' -> [0x5B; 0x5B] ++ x = y' ++ rest -> (length y' <= 2)%nat.
  Proof using can. clear rep.
    intros x HX y' rest HY E. destruct HY as [|d HD|p HP|p d HP HD|b HB|b d HB HD|d HD]; cbn [length]; try lia; cbn in E; injection E as E; try discriminate.
    - exfalso. exact (HX _ _ E HD).
    - destruct p as [|z p]; cbn; [lia|]. injection E as <- E. inversion HP. unfold parameter in *. lia.
    - destruct p as [|z p]; cbn; [lia|]. injection E as <- E. inversion HP. unfold parameter in *. lia.
  Qed.
  Definition not_linux (p x : list N) : Prop := p = [] -> not_head 0x5B x.
  Lemma bound_csi : forall p x, Forall parameter p -> (forall c t, x = c :: t -> ~ parameter c /\ ~ final can c) -> not_linux p x ->
    forall y' rest, after_esc y' -> (0x5B :: p) ++ x = y' ++ rest -> (length y' <= S (length p))%nat.
  Proof using can. clear rep.
    intros p x HP HX NL y' rest HY E. assert (HX' : forall c t, x = c :: t -> ~ parameter c) by (intros c t K; now apply (HX c t)).
    destruct HY as [|d HD|p' HP'|p' d HP' HD|b HB|b d HB HD|d HD]; cbn [length]; try lia; cbn [app] in E; injection E as E; try discriminate.
    - destruct p as [|z p]; [exfalso; eapply (NL eq_refl); eauto|]. injection E as -> E. inversion HP. unfold parameter in *. lia.
    - destruct p as [|z p]; [exfalso; eapply (NL eq_refl); eauto|]. injection E as -> E. inversion HP. unfold parameter in *. lia.
    - destruct (run_cut parameter p p' x rest HP HP' HX' E) as [[-> _]|[L _]]; lia.
    - rewrite app_length. cbn [length]. rewrite <- app_assoc in E.
      destruct (run_cut parameter p p' x ([d] ++ rest) HP HP' HX' E) as [[-> K]|[L _]]; [|lia]. exfalso. exact (proj2 (HX _ _ K) HD).
  Qed.
  Lemma bound_csi_final : forall p c x, Forall parameter p -> ~ parameter c -> not_linux p (c :: x) ->
    forall y' rest, after_esc y' -> (0x5B :: p ++ [c]) ++ x = y' ++ rest -> (length y' <= S (length p + 1))%nat.
  Proof using can. clear rep.
    intros p c x HP HC NL y' rest HY E. cbn [app] in E. rewrite <- app_assoc in E. cbn [app] in E.
    assert (HX' : forall c' t, c :: x = c' :: t -> ~ parameter c') by (intros c' t K; injection K as <- _; exact HC).
    destruct HY as [|d HD|p' HP'|p' d HP' HD|b HB|b d HB HD|d HD]; cbn [length]; try lia; cbn [app] in E; injection E as E; try discriminate.
    - destruct p as [|z p]; [exfalso; eapply (NL eq_refl); eauto|]. injection E as -> E. inversion HP. unfold parameter in *. lia.
    - destruct (run_cut parameter p p' (c :: x) rest HP HP' HX' E) as [[-> _]|[L _]]; lia.
    - rewrite app_length. cbn [length]. rewrite <- app_assoc in E.
      destruct (run_cut parameter p p' (c :: x) ([d] ++ rest) HP HP' HX' E) as [[-> K]|[L _]]; lia.
  Qed.
  Lemma bound_osc : forall b x, Forall osc_char b -> (forall c t, x = c :: t -> ~ osc_char c /\ ~ osc_end c) ->
    forall y' rest, after_esc y' -> (0x5D :: b) ++ x = y' ++ rest -> (length y' <= S (length b))%nat.
  Proof using can. clear rep.
    intros p x HP HX y' rest HY E. assert (HX' : forall c t, x = c :: t -> ~ osc_char c) by (intros c t K; now apply (HX c t)).
    destruct HY as [|d HD|p' HP'|p' d HP' HD|b HB|b d HB HD|d HD]; cbn [length]; try lia; cbn [app] in E; injection E as E; try discriminate.
    - destruct (run_cut osc_char p b x rest HP HB HX' E) as [[-> _]|[L _]]; lia.
    - rewrite app_length. cbn [length]. rewrite <- app_assoc in E.
      destruct (run_cut osc_char p b x ([d] ++ rest) HP HB HX' E) as [[-> K]|[L _]]; [|lia]. exfalso. exact (proj2 (HX _ _ K) HD).
  Qed.
  Lemma bound_osc_end : forall b c x, Forall osc_char b -> osc_end c ->
    forall y' rest, after_esc y' -> (0x5D :: b ++ [c]) ++ x = y' ++ rest -> (length y' <= S (length b + 1))%nat.
  Proof using can. clear rep.
    intros p c x HP HC y' rest HY E. cbn [app] in E. rewrite <- app_assoc in E. cbn [app] in E.
    assert (HX' : forall c' t, c :: x = c' :: t -> ~ osc_char c') by (intros c' t K; injection K as <- _; unfold osc_char, osc_end in *; lia).
    destruct HY as [|d HD|p' HP'|p' d HP' HD|b HB|b d HB HD|d HD]; cbn [length]; try lia; cbn [app] in E; injection E as E; try discriminate.
    - destruct (run_cut osc_char p b (c :: x) rest HP HB HX' E) as [[-> _]|[L _]]; lia.
    - rewrite app_length. cbn [length]. rewrite <- app_assoc in E.
      destruct (run_cut osc_char p b (c :: x) ([d] ++ rest) HP HB HX' E) as [[-> K]|[L _]]; lia.
  Qed.
End Longest.
