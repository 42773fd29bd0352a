(** The machine's output before the end of the text is the replacements of the
    sequences that are certain. *)
From Coq Require Import NArith Arith List Bool Lia ZifyBool ZifyNat ZifyN.
From Verif Require Import Base Ucd Norm Chars TextTables TextUtils Utf8 Input SpecRead UcdFacts NormFacts CharFacts SpecText TextFacts PipelineFacts Utf8Facts ReadFacts ReadInv ReadSession ReadChunk
  SpecEscape EscapeFacts EscapeRun SpecConv SpecPush SpecGap SpecCut SpecCertain.
Import ListNotations.
Local Open Scope N_scope.
Arguments N.add : simpl never.
Arguments N.leb : simpl never.
Arguments N.ltb : simpl never.
Arguments N.eqb : simpl never.

Section Certain.
  Variables (nel lsps : bool).
  Notation tstep := (tstep nel lsps).
  Notation trans := (trans nel lsps).
  Notation rep := (char_rep nel lsps).
  Notation G := (G nel lsps).
  Notation row := (row true rep).
  Notation longest := (longest true rep).

  Lemma certain_det : forall can (rp : N -> list N) s rs, certain can rp s rs -> forall rs', certain can rp s rs' -> rs = rs'.
  Proof.
    intros can rp. assert (O : forall b z r m rest, z <> [] -> SpecEscape.row can rp (b ++ z) r -> b = m ++ rest -> (forall z, SpecEscape.longest can rp m (m ++ rest ++ z)) -> False).
    { intros b z r m rest NZ HR -> HL. specialize (HL z _ _ [] HR). rewrite app_nil_r, <- app_assoc in HL. specialize (HL eq_refl).
      rewrite !app_length in HL. destruct z; [congruence|]. cbn in HL. lia. }
    induction 1 as [|b z r NZ HR|m r rest rs HR HL HT IH]; intros rs' H'.
    - inversion H' as [| |m r rest rs HR _ _ E]; [reflexivity|reflexivity|]. apply app_eq_nil in E as [-> _]. now apply row_nonnil in HR.
    - inversion H' as [| |m r' rest rs HR' HL' _ E]; [reflexivity|reflexivity|]. subst. exfalso. eapply O; eauto.
    - inversion H' as [E|b z r' NZ HR' E|m' r' rest' rs'' HR' HL' HT' E]; subst.
      + symmetry in E. apply app_eq_nil in E as [-> _]. now apply row_nonnil in HR.
      + exfalso. eapply O; eauto.
      + pose proof (HL [] _ _ rest' HR') as L1. rewrite app_nil_r in L1. specialize (L1 (eq_sym E)).
        pose proof (HL' [] _ _ rest HR) as L2. rewrite app_nil_r in L2. specialize (L2 E).
        destruct (app_prefix_len _ _ _ _ _ E) as [-> ->]; [lia|].
        rewrite (row_det _ _ _ _ HR), (row_det _ _ _ _ HR'). f_equal. now apply IH.
  Qed.

  (** * One sequence *)
  Lemma trans_cons : forall x c s, trans x (c :: s) = let '(o, x') := tstep x c in let '(o', x'') := trans x' s in (o ++ o', x'').
  Proof. reflexivity. Qed.
  Lemma trans_ground : forall e b c s, trans (e, Ground b) (c :: s) = let '(o, x') := G e c in let '(o', x'') := trans x' s in (o ++ o', x'').
  Proof. intros. now rewrite trans_cons, t_ground. Qed.
  Lemma trans_silent : forall x c s x', tstep x c = ([], x') -> trans x (c :: s) = trans x' s.
  Proof. intros x c s x' H. rewrite trans_cons, H. now destruct (trans x' s). Qed.
  Lemma trans_along : forall (P : N -> Prop) x, (forall c, P c -> tstep x c = ([], x)) -> forall l s, Forall P l -> trans x (l ++ s) = trans x s.
  Proof.
    intros P x H l s HL. induction HL as [|c l HC HL IH]; [reflexivity|]. cbn [app]. rewrite (trans_silent _ _ _ _ (H c HC)). exact IH.
  Qed.
  Lemma trans_fall : forall x e, forall s, s <> [] -> (forall c t, s = c :: t -> tstep x c = G e c) -> trans x s = trans (e, Ground false) s.
  Proof. intros x e [|c s] H H1; [congruence|]. rewrite trans_cons, trans_ground. now rewrite (H1 c s eq_refl). Qed.

  Definition moves (m r rest : list N) : Prop := forall e b, trans (e, Ground b) (m ++ rest) =
    let '(o, x) := trans (e && nilb r, Ground (is_LF r)) rest in (guard e r ++ o, x).
  Definition silent (s : list N) : Prop := forall e b, fst (trans (e, Ground b) s) = [].
  Definition sure (m rest : list N) : Prop := forall z, longest m (m ++ rest ++ z).
  Definition opening (s : list N) : Prop := exists z r, z <> [] /\ row (s ++ z) r.

  Lemma head_more : forall x s z, s <> [] -> not_head x s -> not_head x (s ++ z).
  Proof. intros x [|c s] z NE H c' t E; [congruence|]. cbn in E. injection E as <- _. eapply H. reflexivity. Qed.

  Lemma mv_char : forall c rest, c <> CR -> c <> FF -> c <> ESC -> moves [c] (rep c) rest.
  Proof.
    intros c rest H1 H2 H3 e b. cbn [app]. rewrite trans_ground, G_char by assumption.
    assert (N : nilb (rep c) = false). { unfold char_rep. destruct (nel && _ || _); [reflexivity|]. pose proof (replace_nonnil c). now destruct (replace c). }
    rewrite N, andb_false_r. reflexivity.
  Qed.
  Lemma trans_cr_lf : forall e rest, trans (e, Cr) (LF :: rest) = let '(o, x) := trans (false, Ground true) rest in (LF :: o, x).
  Proof. intros. now rewrite trans_cons, t_cr_lf. Qed.
  Lemma trans_cr : forall e rest, rest <> [] -> not_head LF rest -> trans (e, Cr) rest = let '(o, x) := trans (false, Ground true) rest in (LF :: o, x).
  Proof.
    intros e [|c rest] NE H; [congruence|]. rewrite trans_cons, trans_ground, t_cr by (eapply H; reflexivity).
    destruct (G false c) as [o x]. cbn [fst snd]. now destruct (trans x rest).
  Qed.
  Lemma trans_ff : forall e rest, rest <> [] -> not_head LF rest -> not_head CR rest -> not_head FF rest ->
    trans (e, Ff) rest = let '(o, x) := trans (false, Ground false) rest in (SP :: o, x).
  Proof.
    intros e [|c rest] NE H1 H2 H3; [congruence|].
    rewrite trans_cons, trans_ground, t_ff by (first [eapply H1|eapply H2|eapply H3]; reflexivity).
    destruct (G false c) as [o x]. cbn [fst snd]. now destruct (trans x rest).
  Qed.
  Lemma trans_ffs : forall f e b s, run_of FF f -> trans (e, Ground b) (f ++ s) = trans (e, Ff) s.
  Proof.
    intros f e b s HF. destruct (run_head _ _ HF) as (t & -> & HT). cbn [app]. rewrite trans_ground, G_FF.
    rewrite (trans_along (fun c => c = FF)); [|intros c ->; apply t_ff_ff|exact HT]. now destruct (trans (e, Ff) s).
  Qed.
  Lemma trans_escs : forall f e b s, run_of ESC f -> trans (e, Ground b) (f ++ s) = trans (e, Esc) s.
  Proof.
    intros f e b s HF. destruct (run_head _ _ HF) as (t & -> & HT). cbn [app]. rewrite trans_ground, G_ESC.
    rewrite (trans_along (fun c => c = ESC)); [|intros c ->; apply t_esc_esc|exact HT]. now destruct (trans (e, Esc) s).
  Qed.
  Lemma mv_escs : forall f y rest, run_of ESC f -> (forall e, trans (e, Esc) (y ++ rest) = trans (e, Ground false) rest) -> moves (f ++ y) [] rest.
  Proof.
    intros f y rest HF H e b. rewrite <- app_assoc, trans_escs, H, guard_nil by exact HF. cbn [nilb is_LF]. rewrite andb_true_r. now destruct (trans _ rest).
  Qed.

  (** after a run of escapes *)
  Definition bounded (y x : list N) : Prop := forall y' rest, after_esc true y' -> y ++ x = y' ++ rest -> (length y' <= length y)%nat.
  Lemma after_escs_sure : forall x, not_head ESC x ->
    (exists z, z <> [] /\ after_esc true (x ++ z) /\ forall e, fst (trans (e, Esc) x) = []) \/
    (exists y rest, x = y ++ rest /\ y ++ rest <> [] /\ (y = [] \/ after_esc true y) /\ (forall z, bounded y (rest ++ z)) /\
      (forall e, trans (e, Esc) (y ++ rest) = trans (e, Ground false) rest)).
  Proof.
    intros x HX. destruct x as [|c x].
    { left. exists [0x40]. split; [discriminate|]. split; [constructor; left; lia|]. reflexivity. }
    assert (HC : c <> ESC) by (eapply HX; reflexivity). clear HX.
    destruct (N.eq_dec c 0x5B) as [-> |N1].
    { destruct x as [|d x].
      { left. exists [0x5B]. split; [discriminate|]. split; [constructor|]. intro e. cbn [trans]. now rewrite t_esc_br. }
      destruct (N.eq_dec d 0x5B) as [-> |N2].
      - destruct x as [|c x].
        { left. exists [0x40]. split; [discriminate|]. split; [now constructor|]. intro e. cbn [trans]. now rewrite t_esc_br, t_start_linux. }
        destruct (N.le_gt_cases c 0x7F) as [L|L]; right.
        + exists [0x5B; 0x5B; c], x. split; [reflexivity|]. split; [discriminate|]. split; [right; now constructor|]. split.
          * intro z. unfold bounded. apply bound_linux1.
          * intro e. cbn [app]. rewrite (trans_silent _ _ _ _ (t_esc_br nel lsps e)), (trans_silent _ _ _ _ (t_start_linux nel lsps e)).
            now rewrite (trans_silent _ _ _ _ (t_linux_char nel lsps e c L)).
        + exists [0x5B; 0x5B], (c :: x). split; [reflexivity|]. split; [discriminate|]. split; [right; constructor|]. split.
          * intro z. unfold bounded. apply bound_linux. intros c' t E. cbn in E. injection E as <- _. lia.
          * intro e. cbn [app]. rewrite (trans_silent _ _ _ _ (t_esc_br nel lsps e)), (trans_silent _ _ _ _ (t_start_linux nel lsps e)).
            apply trans_fall; [discriminate|]. intros c' t E. injection E as <- _. apply t_linux_other. lia.
      - destruct (span parameter D_param (d :: x)) as (p & b & E & HP & HB). rewrite E.
        assert (NL : forall z, b <> [] \/ p <> [] -> not_linux p (b ++ z)).
        { intros z [NB|NP] -> c t EB; [|congruence]. cbn in E. destruct b as [|b0 b]; [congruence|]. cbn in EB. injection EB as <- _. injection E as -> _. exact N2. }
        assert (RS : forall e s, p ++ s <> [] -> trans (e, Esc) (0x5B :: p ++ s) = trans (e, CsiStart) (p ++ s)).
        { intros e s _. apply trans_silent, t_esc_br. }
        assert (RC : forall e, trans (e, CsiStart) (p ++ b) = trans (e, Csi) b).
        { intro e. rewrite <- E, trans_cons, t_start by exact N2. rewrite <- trans_cons, E. apply (trans_along parameter); [intros; now apply t_csi_param|exact HP]. }
        assert (NE : p ++ b <> []) by (rewrite <- E; discriminate).
        destruct b as [|c b].
        { left. exists [0x40]. split; [discriminate|]. rewrite app_nil_r in *. split; [cbn [app]; constructor; [exact HP|left; lia]|].
          intro e. pose proof (RS e [] ltac:(rewrite app_nil_r; exact NE)) as R1. rewrite app_nil_r in R1. rewrite R1, RC. reflexivity. }
        assert (HC1 : ~ parameter c) by (eapply HB; reflexivity).
        destruct (D_final c) as [F|F]; right.
        + exists (0x5B :: p ++ [c]), b. split; [cbn [app]; now rewrite <- app_assoc|]. split; [discriminate|]. split; [right; now constructor|]. split.
          * intro z. unfold bounded. cbn [length]. rewrite app_length. apply bound_csi_final; auto. intros -> c' t K. cbn in K. injection K as <- _. cbn in E. injection E as -> _. exact N2.
          * intro e. cbn [app]. rewrite <- app_assoc. cbn [app]. rewrite RS, RC by exact NE. now rewrite (trans_silent _ _ _ _ (t_csi_final nel lsps e c HC1 F)).
        + exists (0x5B :: p), (c :: b). split; [reflexivity|]. split; [discriminate|]. split; [right; now constructor|]. split.
          * intro z. unfold bounded. apply bound_csi; [exact HP| |apply NL; left; discriminate]. intros c' t K. cbn in K. injection K as <- _. auto.
          * intro e. cbn [app]. rewrite RS, RC by exact NE. apply trans_fall; [discriminate|]. intros c' t K. injection K as <- _. now apply t_csi_other. }
    destruct (N.eq_dec c 0x5D) as [-> |N2].
    { destruct (span osc_char D_osc x) as (p & b & -> & HP & HB).
      assert (RC : forall e s, trans (e, Esc) (0x5D :: p ++ s) = trans (e, Osc) s).
      { intros e s. rewrite (trans_silent _ _ _ _ (t_esc_osc nel lsps e)). apply (trans_along osc_char); [intros; now apply t_osc_char|exact HP]. }
      destruct b as [|c b].
      { left. exists [0x7]. split; [discriminate|]. rewrite app_nil_r. split; [cbn [app]; constructor; [exact HP|now left]|].
        intro e. pose proof (RC e []) as R1. rewrite app_nil_r in R1. now rewrite R1. }
      assert (HC1 : ~ osc_char c) by (eapply HB; reflexivity).
      assert (CC : osc_end c \/ c = ESC) by (unfold osc_char, osc_end in *; change ESC with 0x1B; lia).
      destruct CC as [F| ->]; right.
      - exists (0x5D :: p ++ [c]), b. split; [cbn [app]; now rewrite <- app_assoc|]. split; [discriminate|]. split; [right; now constructor|]. split.
        + intro z. unfold bounded. cbn [length]. rewrite app_length. now apply bound_osc_end.
        + intro e. cbn [app]. rewrite <- app_assoc. cbn [app]. rewrite RC. now rewrite (trans_silent _ _ _ _ (t_osc_end nel lsps e c F)).
      - exists (0x5D :: p), (ESC :: b). split; [reflexivity|]. split; [discriminate|]. split; [right; now constructor|]. split.
        + intro z. unfold bounded. apply bound_osc; [exact HP|]. intros c' t K. cbn in K. injection K as <- _. split; [exact HC1|]. intros [K|K]; discriminate.
        + intro e. cbn [app]. rewrite RC. apply trans_fall; [discriminate|]. intros c' t K. injection K as <- _. apply t_osc_esc. }
    destruct (D_final c) as [F|F]; right.
    - exists [c], x. split; [reflexivity|]. split; [discriminate|]. split; [right; now constructor|]. split; [intro z; unfold bounded; now apply bound_final|].
      intro e. cbn [app]. now rewrite (trans_silent _ _ _ _ (t_esc_final nel lsps e c F N1 N2)).
    - exists [], (c :: x). split; [reflexivity|]. split; [discriminate|]. split; [now left|]. split.
      + intro z. unfold bounded. apply bound_none. intros c' t K. cbn in K. injection K as <- _. auto.
      + intro e. cbn [app]. apply trans_fall; [discriminate|]. intros c' t K. injection K as <- _. now apply t_esc_other.
  Qed.
  Lemma first_certain : forall s, s <> [] -> (opening s /\ silent s) \/ exists m r rest, s = m ++ rest /\ row m r /\ sure m rest /\ moves m r rest.
  Proof.
    intros [|c s] NE; [congruence|]. clear NE.
    destruct (N.eq_dec c CR) as [-> |N1].
    { destruct s as [|d s]; [left; split; [exists [LF], [0xA]; split; [discriminate|apply row_crlf]|intros e b; cbn [ReadFacts.trans]; now rewrite t_ground, G_CR]|].
      right. destruct (N.eq_dec d LF) as [-> |H].
      - exists [CR; LF], [LF], s. split; [reflexivity|]. split; [apply row_crlf|]. split; [intro z; apply long_crlf|].
        intros e b. cbn [app]. rewrite trans_ground, G_CR, trans_cr_lf, guard_LF. cbn [nilb is_LF]. rewrite andb_false_r. now destruct (trans _ s).
      - exists [CR], [LF], (d :: s). split; [reflexivity|]. split; [apply row_cr|]. split; [intro z; apply long_cr; intros u K; cbn in K; injection K as -> _; now apply H|].
        intros e b. cbn [app]. rewrite trans_ground, G_CR, trans_cr, guard_LF; [|discriminate|intros c t K; injection K as <- _; exact H]. cbn [nilb is_LF]. rewrite andb_false_r. now destruct (trans _ (d :: s)). }
    destruct (N.eq_dec c FF) as [-> |N2].
    { destruct (span_run FF s) as (f & x & -> & HF & HX).
      destruct x as [|d x].
      { left. rewrite app_nil_r. split; [exists [LF], [0xA]; split; [discriminate|now apply row_ff_lf]|]. intros e b. rewrite <- (app_nil_r f), trans_ffs by exact HF. reflexivity. }
      destruct (N.eq_dec d LF) as [-> |H1].
      { right. exists (f ++ [LF]), [LF], x. split; [now rewrite <- app_assoc|]. split; [now apply row_ff_lf|]. split; [intro z; rewrite <- app_assoc; now apply long_ff_lf|].
        intros e b. rewrite <- app_assoc, trans_ffs by exact HF. cbn [app]. rewrite trans_cons, t_ff_end by now left.
        rewrite G_LF, guard_LF. cbn [nilb is_LF]. rewrite andb_false_r. now destruct (trans _ x). }
      destruct (N.eq_dec d CR) as [-> |H2].
      { destruct x as [|d x].
        { left. split; [exists [LF], [0xA]; split; [discriminate|rewrite <- app_assoc; now apply row_ff_crlf]|].
          intros e b. rewrite trans_ffs by exact HF. cbn [ReadFacts.trans]. rewrite t_ff_end by now right. now rewrite G_CR. }
        right. destruct (N.eq_dec d LF) as [-> |H3].
        - exists (f ++ [CR; LF]), [LF], x. split; [now rewrite <- app_assoc|]. split; [now apply row_ff_crlf|]. split; [intro z; rewrite <- app_assoc; now apply long_ff_crlf|].
          intros e b. rewrite <- app_assoc, trans_ffs by exact HF. cbn [app]. rewrite trans_cons, t_ff_end by now right.
          rewrite G_CR, trans_cr_lf, guard_LF. cbn [nilb is_LF]. rewrite andb_false_r. now destruct (trans _ x).
        - assert (NH : forall z, not_head LF ((d :: x) ++ z)) by (intros z c t K; cbn in K; injection K as <- _; exact H3).
          exists (f ++ [CR]), [LF], (d :: x). split; [now rewrite <- app_assoc|]. split; [now apply row_ff_cr|]. split; [intro z; rewrite <- app_assoc; apply long_ff_cr; [exact HF|apply NH]|].
          intros e b. rewrite <- app_assoc, trans_ffs by exact HF. cbn [app]. rewrite trans_cons, t_ff_end by now right.
          rewrite G_CR, trans_cr, guard_LF; [|discriminate|rewrite <- (app_nil_r (d :: x)); apply NH]. cbn [nilb is_LF]. rewrite andb_false_r. now destruct (trans _ (d :: x)). }
      right. assert (NH : forall y z, d <> y -> not_head y ((d :: x) ++ z)) by (intros y z D c t K; cbn in K; injection K as <- _; exact D).
      assert (H3 : d <> FF) by (eapply HX; reflexivity).
      exists f, [SP], (d :: x). split; [reflexivity|]. split; [now apply row_ff|]. split; [intro z; apply long_ff; auto; now apply NH|].
      intros e b. rewrite trans_ffs, trans_ff, guard_SP; [|discriminate| | | |exact HF]; try (rewrite <- (app_nil_r (d :: x)); now apply NH).
      cbn [nilb is_LF]. rewrite andb_false_r. change (SP =? LF) with false. now destruct (trans _ (d :: x)). }
    destruct (N.eq_dec c ESC) as [-> |N3].
    { destruct (span_run ESC s) as (f & x & -> & HF & HX).
      destruct (after_escs_sure x HX) as [(z & NZ & HY & HS)|(y & rest & -> & NE & HY & HB & HR)].
      - left. split; [exists z, []; split; [exact NZ|rewrite <- app_assoc; now apply after_esc_row]|]. intros e b. rewrite trans_escs by exact HF. apply HS.
      - right. exists (f ++ y), [], rest. split; [now rewrite <- app_assoc|]. split; [|split].
        + destruct HY as [-> |HY]; [rewrite app_nil_r; now apply row_esc|now apply after_esc_row].
        + intro z. rewrite <- app_assoc. apply long_esc; [exact HF| |exact (HB z)]. rewrite app_assoc. now apply head_more.
        + now apply mv_escs. }
    right. exists [c], (rep c), s. split; [reflexivity|]. split; [now apply row_char|]. split; [intro z; now apply long_char|now apply mv_char].
  Qed.

  Theorem trans_certain : forall s, exists rs, certain true rep s rs /\ forall e b, fst (trans (e, Ground b) s) = guard e (concat rs).
  Proof.
    intro s. remember (length s) as n eqn:Hn. assert (LN : (length s <= n)%nat) by lia. clear Hn. revert s LN.
    induction n as [|n IH]; intros s LN.
    - destruct s; [|cbn in LN; lia]. exists []. split; [constructor|]. intros e b. cbn. now rewrite guard_nil.
    - destruct s as [|c s]; [exists []; split; [constructor|intros e b; cbn; now rewrite guard_nil]|].
      destruct (first_certain (c :: s)) as [[(z & r & NZ & HR) HS]|(m & r & rest & E & HR & HL & HA)]; [discriminate| |].
      + exists []. split; [now apply (certain_open _ _ _ z r)|]. intros e b. cbn [concat]. rewrite guard_nil. apply HS.
      + assert (LM : (0 < length m)%nat) by (apply row_nonnil in HR; destruct m; [congruence|cbn; lia]).
        destruct (IH rest) as (rs & HRS & HRUN). { rewrite E, app_length in LN. lia. }
        rewrite E in *. exists (r :: rs). split; [now constructor|]. intros e b. rewrite HA. specialize (HRUN (e && nilb r) (is_LF r)).
        destruct (trans (e && nilb r, Ground (is_LF r)) rest) as [o x]. cbn [fst concat] in *. now rewrite guard_app, HRUN.
  Qed.
End Certain.
