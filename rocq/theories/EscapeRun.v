(** The reader's state machine, run to the end of the stream, performs
    leftmost-longest replacement. *)
From Coq Require Import NArith Arith List Bool Lia ZifyBool ZifyNat ZifyN.
From Verif Require Import Base Ucd Norm Chars TextTables TextUtils Utf8 Input SpecRead SpecEscape UcdFacts NormFacts CharFacts SpecText TextFacts PipelineFacts IsoFacts Utf8Facts ReadFacts ReadInv ReadSession ReadChunk EscapeFacts.
Import ListNotations.
Local Open Scope N_scope.
Arguments N.add : simpl never.
Arguments N.leb : simpl never.
Arguments N.ltb : simpl never.
Arguments N.eqb : simpl never.

Lemma replace_LF : replace LF = [LF]. Proof. reflexivity. Qed.
Lemma replace_not_LF : forall c, c <> LF -> replace c <> [LF].
Proof.
  intros c H. unfold replace.
  repeat match goal with |- context [if ?b then _ else _] => destruct b; [discriminate|] end. congruence.
Qed.
Local Opaque pipeline replace.

(** what the end of the stream does to a pending state *)
Definition settle (x : tstate) : list N * tstate :=
  match snd x with
  | Ground _ => ([], x)
  | Cr => ([LF], (false, Ground true))
  | Ff => ([SP], (false, Ground false))
  | Esc | CsiStart | Csi | Osc | Linux => ([], (fst x, Ground false))
  end.
Definition run (nel lsps : bool) (x : tstate) (s : list N) : list N * tstate :=
  let '(o, x') := trans nel lsps x s in let '(o1, x1) := settle x' in (o ++ o1, x1).

Definition nilb (r : list N) : bool := match r with [] => true | _ => false end.
Definition is_LF (r : list N) : bool := match r with [c] => c =? LF | _ => false end.
Definition guard (e : bool) (t : list N) : list N := if e then guard_start t else t.

Section Run.
  Variables (nel lsps : bool).
  Notation tstep := (tstep nel lsps).
  Notation run := (run nel lsps).
  Notation rep := (char_rep nel lsps).

  Lemma run_nil : forall x, run x [] = settle x.
  Proof. intro x. unfold EscapeRun.run. cbn. now destruct (settle x). Qed.
  Lemma run_cons : forall x c s, run x (c :: s) = let '(o, x') := tstep x c in let '(o', x'') := run x' s in (o ++ o', x'').
  Proof.
    intros x c s. unfold EscapeRun.run. cbn [trans]. destruct (tstep x c) as [o x']. destruct (trans nel lsps x' s) as [o2 x2].
    destruct (settle x2) as [o3 x3]. now rewrite app_assoc.
  Qed.

  Definition G (e : bool) (c : N) : list N * tstate := gstep nel lsps (e, Ground false) c.
  Lemma G_LF : forall e, G e LF = ([LF], (false, Ground true)). Proof. reflexivity. Qed.
  Lemma G_CR : forall e, G e CR = ([], (e, Cr)). Proof. reflexivity. Qed.
  Lemma G_FF : forall e, G e FF = ([], (e, Ff)). Proof. reflexivity. Qed.
  Lemma G_ESC : forall e, G e ESC = ([], (e, Esc)). Proof. reflexivity. Qed.
  Lemma G_char : forall e c, c <> CR -> c <> FF -> c <> ESC -> G e c = (guard e (rep c), (false, Ground (is_LF (rep c)))).
  Proof.
    intros e c H1 H2 H3. unfold G, gstep, step_ground. destruct (c =? LF) eqn:EL.
    - apply N.eqb_eq in EL. subst c. assert (rep LF = [LF]) as -> by (unfold char_rep; destruct nel, lsps; reflexivity).
      destruct e; reflexivity.
    - destruct (c =? CR) eqn:E1; [lia|]. destruct (c =? FF) eqn:E2; [lia|]. destruct (c =? ESC) eqn:E3; [lia|].
      unfold ground_char. cbn [stub nel_compat lsps_compat expect_starter queue st fst snd app]. unfold char_rep.
      change NEL with 0x85. change LS with 0x2028. change PS with 0x2029.
      destruct (nel && (c =? 0x85) || lsps && ((c =? 0x2028) || (c =? 0x2029))).
      + rewrite replace_LF. destruct e; reflexivity.
      + assert (N1 : is_LF (replace c) = false).
        { pose proof (replace_not_LF c) as K. destruct (replace c) as [|y [|z l]]; try reflexivity. cbn. destruct (y =? LF) eqn:EY; [|reflexivity].
          apply N.eqb_eq in EY. subst y. exfalso. apply K; [lia|reflexivity]. }
        rewrite N1. f_equal. unfold guard, guard_start. destruct e; [|reflexivity]. cbn [andb].
        destruct (replace c) as [|y l]; [reflexivity|]. cbn [head_opt opt_all]. destruct (is_basic_text_start y); reflexivity.
  Qed.
  Lemma t_ground : forall e b c, tstep (e, Ground b) c = G e c.
  Proof.
    intros e b c. unfold ReadFacts.tstep, step. cbn [stub st snd fst]. unfold G, gstep, step_ground, ground_char. cbn.
    repeat (destruct (_ =? _); [reflexivity|]). reflexivity.
  Qed.
  Lemma run_b : forall e b b' s, s <> [] -> run (e, Ground b) s = run (e, Ground b') s.
  Proof. intros e b b' [|c s] H; [congruence|]. now rewrite !run_cons, !t_ground. Qed.
  Lemma run_ground : forall e b c s, run (e, Ground b) (c :: s) = let '(o, x') := G e c in let '(o', x'') := run x' s in (o ++ o', x'').
  Proof. intros. now rewrite run_cons, t_ground. Qed.

  Lemma fall : forall i e c, queue i = [] -> nel_compat i = nel -> lsps_compat i = lsps -> expect_starter i = e ->
    let j := step_ground i c in (queue j, (expect_starter j, st j)) = (fst (G e c), snd (G e c)).
  Proof.
    intros [q it n p e0 a nl ls s] e c HQ H1 H2 H3. cbn in HQ, H1, H2, H3. subst q nl ls e0. unfold G, gstep, stub, step_ground, ground_char. cbn.
    repeat (destruct (_ =? _); [reflexivity|]). reflexivity.
  Qed.
  Lemma fst_snd : forall A B (p : A * B), (fst p, snd p) = p. Proof. now intros A B []. Qed.

  Lemma t_cr_lf : forall e, tstep (e, Cr) LF = ([LF], (false, Ground true)). Proof. reflexivity. Qed.
  Lemma ground_push : forall e s cs st' c, let j := step_ground (push_set (stub nel lsps (e, s)) cs st') c in
    (queue j, (expect_starter j, st j)) = (cs ++ fst (G false c), snd (G false c)).
  Proof.
    intros e s cs st' c. unfold G, gstep, stub, push_set, step_ground, ground_char. cbn.
    repeat (destruct (_ =? _); [cbn; rewrite ?app_nil_r; reflexivity|]). reflexivity.
  Qed.
  Lemma t_cr : forall e c, c <> LF -> tstep (e, Cr) c = (LF :: fst (G false c), snd (G false c)).
  Proof.
    intros e c H. unfold ReadFacts.tstep, step. cbn [stub st snd]. destruct (c =? LF) eqn:E; [lia|]. apply ground_push.
  Qed.
  Lemma t_ff_ff : forall e, tstep (e, Ff) FF = ([], (e, Ff)). Proof. reflexivity. Qed.
  Lemma t_ff_end : forall e c, c = LF \/ c = CR -> tstep (e, Ff) c = G false c.
  Proof. intros e c [-> | ->]; reflexivity. Qed.
  Lemma t_ff : forall e c, c <> LF -> c <> CR -> c <> FF -> tstep (e, Ff) c = (SP :: fst (G false c), snd (G false c)).
  Proof.
    intros e c H1 H2 H3. unfold ReadFacts.tstep, step. cbn [stub st snd]. destruct (c =? FF) eqn:E; [lia|]. destruct (c =? LF) eqn:E1; [lia|]. destruct (c =? CR) eqn:E2; [lia|].
    apply ground_push.
  Qed.
  Lemma t_esc_esc : forall e, tstep (e, Esc) ESC = ([], (e, Esc)). Proof. reflexivity. Qed.
  Lemma t_esc_br : forall e, tstep (e, Esc) 0x5B = ([], (e, CsiStart)). Proof. reflexivity. Qed.
  Lemma t_esc_osc : forall e, tstep (e, Esc) 0x5D = ([], (e, Osc)). Proof. reflexivity. Qed.
  Lemma finalb : forall c, final true c <-> in_range c 0x40 0x7E || (c =? CAN) = true.
  Proof. intro c. unfold final, in_range. change CAN with 0x18. lia. Qed.
  Lemma paramb : forall c, parameter c <-> in_range c 0x20 0x3F = true.
  Proof. intro c. unfold parameter, in_range. lia. Qed.
  Lemma t_esc_final : forall e c, final true c -> c <> 0x5B -> c <> 0x5D -> tstep (e, Esc) c = ([], (e, Ground false)).
  Proof.
    intros e c H H1 H2. pose proof (final_not_esc _ _ H) as H3. apply finalb in H. unfold ReadFacts.tstep, step. cbn [stub st snd].
    destruct (c =? 0x5B) eqn:E; [lia|]. destruct (c =? 0x5D) eqn:E1; [lia|]. change ESC with 0x1B. destruct (c =? 0x1B) eqn:E2; [lia|]. rewrite H. reflexivity.
  Qed.
  Lemma t_esc_other : forall e c, ~ final true c -> c <> ESC -> tstep (e, Esc) c = G e c.
  Proof.
    intros e c H H3. rewrite finalb in H. apply not_true_is_false in H. unfold ReadFacts.tstep, step. cbn [stub st snd].
    destruct (c =? 0x5B) eqn:E; [apply N.eqb_eq in E; subst; discriminate|]. destruct (c =? 0x5D) eqn:E1; [apply N.eqb_eq in E1; subst; discriminate|].
    destruct (c =? ESC) eqn:E2; [lia|]. rewrite H. rewrite (fall (set_st _ _) e c); reflexivity.
  Qed.
  Lemma t_start_linux : forall e, tstep (e, CsiStart) 0x5B = ([], (e, Linux)). Proof. reflexivity. Qed.
  Lemma t_start : forall e c, c <> 0x5B -> tstep (e, CsiStart) c = tstep (e, Csi) c.
  Proof. intros e c H. unfold ReadFacts.tstep, step. cbn [stub st snd]. destruct (c =? 0x5B) eqn:E; [lia|]. reflexivity. Qed.
  Lemma t_csi_param : forall e c, parameter c -> tstep (e, Csi) c = ([], (e, Csi)).
  Proof. intros e c H. apply paramb in H. unfold ReadFacts.tstep, step. cbn [stub st snd]. rewrite H. reflexivity. Qed.
  Lemma t_csi_final : forall e c, ~ parameter c -> final true c -> tstep (e, Csi) c = ([], (e, Ground false)).
  Proof.
    intros e c H1 H. rewrite paramb in H1. apply not_true_is_false in H1. apply finalb in H. unfold ReadFacts.tstep, step. cbn [stub st snd]. rewrite H1.
    destruct (in_range c 0x40 0x7E); [reflexivity|]. cbn in H. rewrite H. reflexivity.
  Qed.
  Lemma t_csi_other : forall e c, ~ parameter c -> ~ final true c -> tstep (e, Csi) c = G e c.
  Proof.
    intros e c H1 H. rewrite paramb in H1. apply not_true_is_false in H1. rewrite finalb in H. apply not_true_is_false in H. apply orb_false_iff in H. destruct H as [H2 H3].
    unfold ReadFacts.tstep, step. cbn [stub st snd]. rewrite H1, H2, H3. rewrite (fall (set_st _ _) e c); reflexivity.
  Qed.
  Lemma t_osc_char : forall e c, osc_char c -> tstep (e, Osc) c = ([], (e, Osc)).
  Proof.
    intros e c (H1 & H2 & H3). unfold ReadFacts.tstep, step. cbn [stub st snd]. change BEL with 0x7. change CAN with 0x18. change ESC with 0x1B.
    destruct (c =? 0x7) eqn:E; [lia|]. destruct (c =? 0x18) eqn:E1; [lia|]. destruct (c =? 0x1B) eqn:E2; [lia|]. reflexivity.
  Qed.
  Lemma t_osc_end : forall e c, osc_end c -> tstep (e, Osc) c = ([], (e, Ground false)).
  Proof. intros e c [-> | ->]; reflexivity. Qed.
  Lemma t_osc_esc : forall e, tstep (e, Osc) ESC = G e ESC. Proof. reflexivity. Qed.
  Lemma t_linux_char : forall e c, c <= 0x7F -> tstep (e, Linux) c = ([], (e, Ground false)).
  Proof. intros e c H. unfold ReadFacts.tstep, step. cbn [stub st snd]. change DEL with 0x7F. destruct (c <=? 0x7F) eqn:E; [reflexivity|lia]. Qed.
  Lemma t_linux_other : forall e c, ~ c <= 0x7F -> tstep (e, Linux) c = G e c.
  Proof.
    intros e c H. unfold ReadFacts.tstep, step. cbn [stub st snd]. change DEL with 0x7F. destruct (c <=? 0x7F) eqn:E; [lia|].
    rewrite (fall (set_st _ _) e c); reflexivity.
  Qed.

  (** a state without output, kept along a list *)
  Lemma run_along : forall (P : N -> Prop) x, (forall c, P c -> tstep x c = ([], x)) -> forall l s, Forall P l -> run x (l ++ s) = run x s.
  Proof.
    intros P x H l s HL. induction HL as [|c l HC HL IH]; [reflexivity|]. cbn [app]. rewrite run_cons, H by exact HC. rewrite IH.
    now destruct (run x s).
  Qed.
  Lemma run_silent : forall x c s x', tstep x c = ([], x') -> run x (c :: s) = run x' s.
  Proof. intros x c s x' H. rewrite run_cons, H. now destruct (run x' s). Qed.
  Lemma run_fall : forall x e, settle x = ([], (e, Ground false)) -> forall s, (forall c t, s = c :: t -> tstep x c = G e c) -> run x s = run (e, Ground false) s.
  Proof.
    intros x e HS [|c s] H; [rewrite !run_nil, HS; reflexivity|]. rewrite run_cons, run_ground. now rewrite (H c s eq_refl).
  Qed.

  Notation row := (row true rep).
  Notation longest := (longest true rep).
  Definition advances (m r rest : list N) : Prop := forall e b, run (e, Ground b) (m ++ rest) =
    let '(o, x) := run (e && nilb r, Ground (is_LF r)) rest in (guard e r ++ o, x).

  Lemma guard_nil : forall e, guard e [] = []. Proof. now intros []. Qed.
  Lemma guard_LF : forall e, guard e [LF] = [LF]. Proof. now intros []. Qed.
  Lemma guard_SP : forall e, guard e [SP] = [SP]. Proof. now intros []. Qed.

  Lemma adv_char : forall c rest, c <> CR -> c <> FF -> c <> ESC -> advances [c] (rep c) rest.
  Proof.
    intros c rest H1 H2 H3 e b. cbn [app]. rewrite run_ground, G_char by assumption.
    assert (N : nilb (rep c) = false). { unfold char_rep. destruct (nel && _ || _); [reflexivity|]. pose proof (replace_nonnil c). now destruct (replace c). }
    rewrite N, andb_false_r. reflexivity.
  Qed.
  (** from the state after a CR or after form feeds *)
  Lemma run_cr_lf : forall e rest, run (e, Cr) (LF :: rest) = let '(o, x) := run (false, Ground true) rest in (LF :: o, x).
  Proof. intros. now rewrite run_cons, t_cr_lf. Qed.
  Lemma run_cr : forall e rest, not_head LF rest -> run (e, Cr) rest = let '(o, x) := run (false, Ground true) rest in (LF :: o, x).
  Proof.
    intros e [|c rest] H; [rewrite !run_nil; reflexivity|]. rewrite run_cons, run_ground, t_cr by (eapply H; reflexivity).
    destruct (G false c) as [o x]. cbn [fst snd]. now destruct (run x rest).
  Qed.
  Lemma run_ff : forall e rest, not_head LF rest -> not_head CR rest -> not_head FF rest ->
    run (e, Ff) rest = let '(o, x) := run (false, Ground false) rest in (SP :: o, x).
  Proof.
    intros e [|c rest] H1 H2 H3; [rewrite !run_nil; reflexivity|].
    rewrite run_cons, run_ground, t_ff by (first [eapply H1|eapply H2|eapply H3]; reflexivity).
    destruct (G false c) as [o x]. cbn [fst snd]. now destruct (run x rest).
  Qed.

  Lemma adv_crlf : forall rest, advances [CR; LF] [LF] rest.
  Proof. intros rest e b. cbn [app]. rewrite run_ground, G_CR, run_cr_lf, guard_LF. cbn [nilb is_LF]. rewrite andb_false_r. now destruct (run _ rest). Qed.
  Lemma adv_cr : forall rest, not_head LF rest -> advances [CR] [LF] rest.
  Proof. intros rest H e b. cbn [app]. rewrite run_ground, G_CR, run_cr, guard_LF by exact H. cbn [nilb is_LF]. rewrite andb_false_r. now destruct (run _ rest). Qed.

  Lemma run_ffs : forall f e b s, run_of FF f -> run (e, Ground b) (f ++ s) = run (e, Ff) s.
  Proof.
    intros f e b s HF. destruct (run_head _ _ HF) as (t & -> & HT). cbn [app]. rewrite run_ground, G_FF.
    rewrite (run_along (fun c => c = FF)); [|intros c ->; apply t_ff_ff|exact HT]. now destruct (run (e, Ff) s).
  Qed.
  Lemma adv_ff_crlf : forall f rest, run_of FF f -> advances (f ++ [CR; LF]) [LF] rest.
  Proof.
    intros f rest HF e b. rewrite <- app_assoc, run_ffs by exact HF. cbn [app]. rewrite run_cons, t_ff_end by now right.
    rewrite G_CR, run_cr_lf, guard_LF. cbn [nilb is_LF]. rewrite andb_false_r. now destruct (run _ rest).
  Qed.
  Lemma adv_ff_lf : forall f rest, run_of FF f -> advances (f ++ [LF]) [LF] rest.
  Proof.
    intros f rest HF e b. rewrite <- app_assoc, run_ffs by exact HF. cbn [app]. rewrite run_cons, t_ff_end by now left.
    rewrite G_LF, guard_LF. cbn [nilb is_LF]. rewrite andb_false_r. now destruct (run _ rest).
  Qed.
  Lemma adv_ff_cr : forall f rest, run_of FF f -> not_head LF rest -> advances (f ++ [CR]) [LF] rest.
  Proof.
    intros f rest HF H e b. rewrite <- app_assoc, run_ffs by exact HF. cbn [app]. rewrite run_cons, t_ff_end by now right.
    rewrite G_CR, run_cr, guard_LF by exact H. cbn [nilb is_LF]. rewrite andb_false_r. now destruct (run _ rest).
  Qed.
  Lemma adv_ff : forall f rest, run_of FF f -> not_head LF rest -> not_head CR rest -> not_head FF rest -> advances f [SP] rest.
  Proof.
    intros f rest HF H1 H2 H3 e b. rewrite run_ffs, run_ff, guard_SP by assumption. cbn [nilb is_LF]. rewrite andb_false_r.
    change (SP =? LF) with false. now destruct (run _ rest).
  Qed.

  Lemma run_escs : forall f e b s, run_of ESC f -> run (e, Ground b) (f ++ s) = run (e, Esc) s.
  Proof.
    intros f e b s HF. destruct (run_head _ _ HF) as (t & -> & HT). cbn [app]. rewrite run_ground, G_ESC.
    rewrite (run_along (fun c => c = ESC)); [|intros c ->; apply t_esc_esc|exact HT]. now destruct (run (e, Esc) s).
  Qed.
  Lemma adv_escs : forall f y rest, run_of ESC f -> (forall e, run (e, Esc) (y ++ rest) = run (e, Ground false) rest) -> advances (f ++ y) [] rest.
  Proof.
    intros f y rest HF H e b. rewrite <- app_assoc, run_escs, H, guard_nil by exact HF. cbn [nilb is_LF]. rewrite andb_true_r. now destruct (run _ rest).
  Qed.

  Lemma span : forall (P : N -> Prop), (forall c, P c \/ ~ P c) -> forall s, exists a b, s = a ++ b /\ Forall P a /\ (forall c t, b = c :: t -> ~ P c).
  Proof.
    intros P D. induction s as [|c s (a & b & -> & HA & HB)]; [exists [], []; repeat split; auto; discriminate|].
    destruct (D c) as [H|H].
    - exists (c :: a), b. repeat split; auto.
    - exists [], (c :: a ++ b). repeat split; auto. intros c' t E. injection E as <- _. exact H.
  Qed.
  Lemma D_eq : forall x c : N, c = x \/ ~ c = x. Proof. intros x c. destruct (N.eq_dec c x); auto. Qed.
  Lemma D_param : forall c, parameter c \/ ~ parameter c. Proof. intro c. unfold parameter. lia. Qed.
  Lemma D_final : forall c, final true c \/ ~ final true c. Proof. intro c. rewrite finalb. destruct (_ || _); auto. Qed.
  Lemma D_osc : forall c, osc_char c \/ ~ osc_char c. Proof. intro c. unfold osc_char. lia. Qed.

  (** after a run of escapes *)
  Lemma after_escs : forall x, not_head ESC x -> exists y rest, x = y ++ rest /\ (y = [] \/ after_esc true y) /\
    (forall y' rest', after_esc true y' -> y ++ rest = y' ++ rest' -> (length y' <= length y)%nat) /\
    (forall e, run (e, Esc) (y ++ rest) = run (e, Ground false) rest).
  Proof.
    intros x HX. destruct x as [|c x].
    { exists [], []. split; [reflexivity|]. split; [now left|]. split.
      - apply bound_none. discriminate.
      - intro e. cbn [app]. rewrite !run_nil. reflexivity. }
    assert (HC : c <> ESC) by (eapply HX; reflexivity). clear HX.
    destruct (N.eq_dec c 0x5B) as [-> |N1].
    { destruct x as [|d x].
      { exists [0x5B], []. split; [reflexivity|]. split; [right; apply (ae_csi _ []); constructor|]. split.
        - apply (bound_csi _ [] []); [constructor|discriminate|intros _ ? ?; discriminate].
        - intro e. cbn [app]. rewrite (run_silent _ _ _ _ (t_esc_br e)), !run_nil. reflexivity. }
      destruct (N.eq_dec d 0x5B) as [-> |N2].
      - destruct x as [|c x].
        { exists [0x5B; 0x5B], []. split; [reflexivity|]. split; [right; constructor|]. split.
          - apply bound_linux. discriminate.
          - intro e. cbn [app]. rewrite (run_silent _ _ _ _ (t_esc_br e)), (run_silent _ _ _ _ (t_start_linux e)), !run_nil. reflexivity. }
        destruct (N.le_gt_cases c 0x7F) as [L|L].
        + exists [0x5B; 0x5B; c], x. split; [reflexivity|]. split; [right; now constructor|]. split.
          * apply bound_linux1.
          * intro e. cbn [app]. rewrite (run_silent _ _ _ _ (t_esc_br e)), (run_silent _ _ _ _ (t_start_linux e)).
            now rewrite (run_silent _ _ _ _ (t_linux_char e c L)).
        + exists [0x5B; 0x5B], (c :: x). split; [reflexivity|]. split; [right; constructor|]. split.
          * apply bound_linux. intros c' t E. injection E as <- _. lia.
          * intro e. cbn [app]. rewrite (run_silent _ _ _ _ (t_esc_br e)), (run_silent _ _ _ _ (t_start_linux e)).
            apply run_fall; [reflexivity|]. intros c' t E. injection E as <- _. apply t_linux_other. lia.
      - destruct (span parameter D_param (d :: x)) as (p & b & E & HP & HB). rewrite E.
        assert (NL : not_linux p b). { intros -> c t EB. cbn in E. rewrite EB in E. injection E as -> _. exact N2. }
        assert (RS : forall e s, p ++ s <> [] -> run (e, Esc) (0x5B :: p ++ s) = run (e, CsiStart) (p ++ s)).
        { intros e s _. apply run_silent, t_esc_br. }
        assert (RC : forall e, run (e, CsiStart) (p ++ b) = run (e, Csi) b).
        { intro e. rewrite <- E, run_cons, t_start by exact N2. rewrite <- run_cons, E. apply (run_along parameter); [intros; now apply t_csi_param|exact HP]. }
        assert (NE : p ++ b <> []) by (rewrite <- E; discriminate).
        destruct b as [|c b].
        { exists (0x5B :: p), []. split; [reflexivity|]. split; [right; now constructor|]. split.
          - apply bound_csi; [exact HP|discriminate|exact NL].
          - intro e. cbn [app]. rewrite RS, RC by exact NE. rewrite !run_nil. reflexivity. }
        assert (HC1 : ~ parameter c) by (eapply HB; reflexivity).
        destruct (D_final c) as [F|F].
        + exists (0x5B :: p ++ [c]), b. split; [cbn [app]; now rewrite <- app_assoc|]. split; [right; now constructor|]. split.
          * cbn [length]. rewrite app_length. now apply bound_csi_final.
          * intro e. cbn [app]. rewrite <- app_assoc. cbn [app]. rewrite RS, RC by exact NE. now rewrite (run_silent _ _ _ _ (t_csi_final e c HC1 F)).
        + exists (0x5B :: p), (c :: b). split; [reflexivity|]. split; [right; now constructor|]. split.
          * apply bound_csi; [exact HP| |exact NL]. intros c' t K. injection K as <- _. auto.
          * intro e. cbn [app]. rewrite RS, RC by exact NE. apply run_fall; [reflexivity|]. intros c' t K. injection K as <- _. now apply t_csi_other. }
    destruct (N.eq_dec c 0x5D) as [-> |N2].
    { destruct (span osc_char D_osc x) as (p & b & -> & HP & HB).
      assert (RC : forall e s, run (e, Esc) (0x5D :: p ++ s) = run (e, Osc) s).
      { intros e s. rewrite (run_silent _ _ _ _ (t_esc_osc e)). apply (run_along osc_char); [intros; now apply t_osc_char|exact HP]. }
      destruct b as [|c b].
      { exists (0x5D :: p), []. split; [reflexivity|]. split; [right; now constructor|]. split.
        - apply bound_osc; [exact HP|discriminate].
        - intro e. cbn [app]. rewrite RC, !run_nil. reflexivity. }
      assert (HC1 : ~ osc_char c) by (eapply HB; reflexivity).
      assert (CC : osc_end c \/ c = ESC) by (unfold osc_char, osc_end in *; change ESC with 0x1B; lia).
      destruct CC as [F| ->].
      - exists (0x5D :: p ++ [c]), b. split; [cbn [app]; now rewrite <- app_assoc|]. split; [right; now constructor|]. split.
        + cbn [length]. rewrite app_length. now apply bound_osc_end.
        + intro e. cbn [app]. rewrite <- app_assoc. cbn [app]. rewrite RC. now rewrite (run_silent _ _ _ _ (t_osc_end e c F)).
      - exists (0x5D :: p), (ESC :: b). split; [reflexivity|]. split; [right; now constructor|]. split.
        + apply bound_osc; [exact HP|]. intros c' t K. injection K as <- _. split; [exact HC1|]. intros [K|K]; discriminate.
        + intro e. cbn [app]. rewrite RC. apply run_fall; [reflexivity|]. intros c' t K. injection K as <- _. apply t_osc_esc. }
    destruct (D_final c) as [F|F].
    - exists [c], x. split; [reflexivity|]. split; [right; now constructor|]. split; [now apply bound_final|].
      intro e. cbn [app]. now rewrite (run_silent _ _ _ _ (t_esc_final e c F N1 N2)).
    - exists [], (c :: x). split; [reflexivity|]. split; [now left|]. split.
      + apply bound_none. intros c' t K. injection K as <- _. auto.
      + intro e. cbn [app]. apply run_fall; [reflexivity|]. intros c' t K. injection K as <- _. now apply t_esc_other.
  Qed.

  Lemma D_head : forall x (s : list N), (exists t, s = x :: t) \/ not_head x s.
  Proof.
    intros x [|c s]; [right; intros ? ? K; discriminate|]. destruct (N.eq_dec c x) as [-> |H]; [left; eauto|right].
    intros c' t K. injection K as <- _. exact H.
  Qed.
  Lemma span_run : forall x s, exists f rest, x :: s = f ++ rest /\ run_of x f /\ not_head x rest.
  Proof.
    intros x s. destruct (span (fun c => c = x) (D_eq x) s) as (a & b & -> & HA & HB). exists (x :: a), b. split; [reflexivity|]. split.
    - split; [discriminate|now constructor].
    - exact HB.
  Qed.
  Lemma first_token : forall s, s <> [] -> exists m r rest, s = m ++ rest /\ row m r /\ longest m s /\ advances m r rest.
  Proof.
    intros [|c s] NE; [congruence|]. clear NE.
    destruct (N.eq_dec c CR) as [-> |N1].
    { destruct (D_head LF s) as [[t ->]|H].
      - exists [CR; LF], [LF], t. split; [reflexivity|]. split; [apply row_crlf|]. split; [apply long_crlf|apply adv_crlf].
      - exists [CR], [LF], s. split; [reflexivity|]. split; [apply row_cr|]. split; [|now apply adv_cr].
        apply long_cr. intros u ->. exact (H _ _ eq_refl eq_refl). }
    destruct (N.eq_dec c FF) as [-> |N2].
    { destruct (span_run FF s) as (f & x & -> & HF & HX).
      destruct (D_head LF x) as [[t ->]|H1].
      { exists (f ++ [LF]), [LF], t. split; [now rewrite <- app_assoc|]. split; [now apply row_ff_lf|]. split; [now apply long_ff_lf|now apply adv_ff_lf]. }
      destruct (D_head CR x) as [[t ->]|H2].
      { destruct (D_head LF t) as [[u ->]|H2].
        - exists (f ++ [CR; LF]), [LF], u. split; [now rewrite <- app_assoc|]. split; [now apply row_ff_crlf|]. split; [now apply long_ff_crlf|now apply adv_ff_crlf].
        - exists (f ++ [CR]), [LF], t. split; [now rewrite <- app_assoc|]. split; [now apply row_ff_cr|]. split; [now apply long_ff_cr|now apply adv_ff_cr]. }
      exists f, [SP], x. split; [reflexivity|]. split; [now apply row_ff|]. split; [now apply long_ff|now apply adv_ff]. }
    destruct (N.eq_dec c ESC) as [-> |N3].
    { destruct (span_run ESC s) as (f & x & -> & HF & HX).
      destruct (after_escs x HX) as (y & rest & -> & HY & HB & HR).
      exists (f ++ y), [], rest. split; [now rewrite <- app_assoc|]. split; [|split].
      - destruct HY as [-> |HY]; [rewrite app_nil_r; now apply row_esc|now apply after_esc_row].
      - now apply long_esc.
      - now apply adv_escs. }
    exists [c], (rep c), s. split; [reflexivity|]. split; [now apply row_char|]. split; [now apply long_char|now apply adv_char].
  Qed.

  (** the state reached *)
  Definition last_nl (b : bool) (rs : list (list N)) : bool := match last_opt rs with Some r => is_LF r | None => b end.
  Lemma guard_app : forall e r t, guard e (r ++ t) = guard e r ++ guard (e && nilb r) t.
  Proof.
    intros [] r t; cbn [andb]; [|reflexivity]. destruct r as [|c r]; [reflexivity|]. cbn [nilb guard app guard_start].
    destruct (is_basic_text_start c); reflexivity.
  Qed.
  Lemma last_nl_cons : forall b r rs, last_nl b (r :: rs) = last_nl (is_LF r) rs.
  Proof. intros b r [|r' rs]; [reflexivity|]. unfold last_nl. change (last_opt (r :: r' :: rs)) with (last_opt (r' :: rs)). destruct (last_opt (r' :: rs)) eqn:E; [reflexivity|]. now apply last_opt_none in E. Qed.

  Theorem run_replaced : forall s, exists rs, replaced true rep s rs /\
    forall e b, run (e, Ground b) s = (guard e (concat rs), (e && nilb (concat rs), Ground (last_nl b rs))).
  Proof.
    intro s. remember (length s) as n eqn:Hn. assert (LN : (length s <= n)%nat) by lia. clear Hn. revert s LN.
    induction n as [|n IH]; intros s LN.
    - destruct s; [|cbn in LN; lia]. exists []. split; [constructor|]. intros e b. rewrite run_nil. cbn. now rewrite guard_nil, andb_true_r.
    - destruct s as [|c s]; [exists []; split; [constructor|intros e b; rewrite run_nil; cbn; now rewrite guard_nil, andb_true_r]|].
      destruct (first_token (c :: s)) as (m & r & rest & E & HR & HL & HA); [discriminate|].
      assert (LM : (0 < length m)%nat) by (apply row_nonnil in HR; destruct m; [congruence|cbn; lia]).
      destruct (IH rest) as (rs & HRS & HRUN). { rewrite E, app_length in LN. lia. }
      rewrite E in *. exists (r :: rs). split; [now constructor|]. intros e b. rewrite HA, HRUN. cbn [concat].
      rewrite guard_app, last_nl_cons. f_equal. f_equal. rewrite <- andb_assoc. f_equal. now destruct r.
  Qed.
End Run.

(** * The whole translation *)
Lemma fin_settle : forall l x o o1 x1, settle x = (o1, x1) -> l = last_opt o ->
  o ++ fst (fin End l x) = guard_end (o ++ o1) ++ (if is_ground_nl (snd x1) then [] else [LF]).
Proof.
  intros l [e t] o o1 x1 H ->. unfold settle in H. unfold fin, guard_end. cbn [is_active is_end snd fst] in *.
  match goal with |- context [let '(_, _) := ?m in _] => assert (E : m = (o1, x1)) by (rewrite <- H; now destruct t) end.
  rewrite E. clear E. rewrite last_opt_app. destruct (last_opt o1) as [y|].
  - destruct (is_basic_text_end y); destruct (is_ground_nl (snd x1)); cbn [fst]; rewrite ?app_nil_r, <- ?app_assoc; reflexivity.
  - destruct (last_opt o) as [y|]; [destruct (is_basic_text_end y)|]; destruct (is_ground_nl (snd x1)); cbn [fst]; rewrite ?app_nil_r, <- ?app_assoc; reflexivity.
Qed.

(** Append U+A, unless there is no text or the last sequence replaced is a line end. *)
Definition needs_newline (rs : list (list N)) : bool := negb (last_nl true rs).

Theorem translate_replaced : forall nel lsps s rs, replaced true (char_rep nel lsps) s rs ->
  translate nel lsps s = guard_end (guard_start (concat rs)) ++ (if needs_newline rs then [LF] else []).
Proof.
  intros nel lsps s rs H. destruct (run_replaced nel lsps s) as (rs' & HR & HRUN). rewrite (replaced_det _ _ _ _ H _ HR).
  specialize (HRUN true true). unfold translate. unfold run in HRUN.
  destruct (trans nel lsps (true, Ground true) s) as [o x]. destruct (settle x) as [o1 x1] eqn:ES.
  rewrite (fin_settle _ _ _ _ _ ES eq_refl). injection HRUN as E1 ->. rewrite E1. cbn [snd is_ground_nl guard]. unfold needs_newline.
  now destruct (last_nl true rs').
Qed.
Theorem replaced_total : forall nel lsps s, exists rs, replaced true (char_rep nel lsps) s rs.
Proof. intros nel lsps s. destruct (run_replaced nel lsps s) as (rs & H & _). eauto. Qed.
