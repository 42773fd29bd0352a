(** How far the iterators look ahead. *)
From Coq Require Import NArith Arith List Bool Lia ZifyBool ZifyNat ZifyN.
From Verif Require Import Base Ucd UcdTables Norm Chars TextTables TextUtils UcdFacts NormFacts CharFacts PipelineFacts KeepFacts Output Errors ErrorProps WriteFacts NormIter NormIterProps SpecAhead.
Import ListNotations.
Local Open Scope N_scope.
Arguments N.add : simpl never.
Arguments N.leb : simpl never.
Arguments N.ltb : simpl never.
Arguments N.eqb : simpl never.
Arguments cjk1 : simpl never.
Arguments cd : simpl never.
Arguments SUB : simpl never.

(** * The text an iterator delivers when its source delivers [l] *)
Fixpoint iso_open (need have : bool) (s : list N) : list N :=
  match s with
  | [] => []
  | c :: t =>
      if (need && negb (c =? CGJ)) || (negb (is_assigned c) && negb have)
      then CGJ :: c :: iso_open (negb (is_assigned c)) false t
      else c :: iso_open false (c =? CGJ) t
  end.
Definition Gi (i : isolater) (l : list N) : list N := opt (deferred i) ++ iso_open (need_cgj i) (have_cgj i) l.
Definition Gr (r : replacer) (l : list N) : list N := opt (rep_buf r) ++ flat_map cjk1 (Gi (rep_src r) l).
Definition Gs (s : safer) (l : list N) : list N := stream_safe_go (nonstarter_count s) (opt (safe_buf s) ++ Gr (safe_src s) l).
Definition G0 (l : list N) : list N := stream_safe (flat_map cjk1 (iso_open false false l)).

Definition moved {S} (src : S -> source) (G : S -> list N -> list N) (s : S) (o : option N) (s' : S) : Prop :=
  checking (src s') = true /\
  ((src s' = src s /\ exists c, o = Some c /\ forall l, G s l = c :: G s' l) \/
   (exists t c, chars (src s) = t :: chars (src s') /\ cell (src s') = match check_basic_text_char t with Some e => Some e | None => cell (src s) end /\ o = Some c /\
     G s [] = [] /\ forall l, G s (categorize1 t :: l) = c :: G s' l) \/
   (src s' = src s /\ chars (src s) = [])).

Lemma iso_moved : forall i o i', iso_next i = (o, i') -> checking (iso_src i) = true -> moved iso_src Gi i o i'.
Proof.
  intros [[cs b e] n h [c|]] o i' H B; unfold iso_next in H; cbn [deferred iso_src need_cgj have_cgj checking] in *; subst b.
  - injection H as <- <-. split; [reflexivity|]. left. split; [reflexivity|]. exists c. split; [reflexivity|]. intro l. reflexivity.
  - unfold source_next in H. cbn [chars checking cell] in H. destruct cs as [|t cs].
    + destruct n; injection H as <- <-; (split; [reflexivity|]); right; right; split; reflexivity.
    + set (K := (if true then match check_basic_text_char t with None => (Some t, mksource cs true e) | Some x => (Some SUB, mksource cs true (Some x)) end else (Some t, mksource cs false e))) in H.
      assert (EK : K = (Some (categorize1 t), mksource cs true (match check_basic_text_char t with Some x => Some x | None => e end))) by (unfold K, categorize1; destruct (check_basic_text_char t); reflexivity).
      rewrite EK in H. set (c := categorize1 t) in *. set (e' := match check_basic_text_char t with Some x => Some x | None => e end) in *.
      destruct ((n && negb (c =? CGJ)) || (negb (is_assigned c) && negb h)) eqn:C; injection H as <- <-; (split; [reflexivity|]); right; left; exists t; eexists; (split; [reflexivity|]);
        (split; [reflexivity|]); (split; [reflexivity|]); (split; [reflexivity|]); intro l; unfold Gi; fold c; cbn [deferred iso_src need_cgj have_cgj opt app iso_open]; rewrite C; reflexivity.
Qed.
Lemma rep_moved : forall r o r', rep_next r = (o, r') -> checking (iso_src (rep_src r)) = true -> moved (fun r => iso_src (rep_src r)) Gr r o r'.
Proof.
  intros [i [c|]] o r' H B; unfold rep_next in H; cbn [rep_buf rep_src] in *.
  - injection H as <- <-. split; [exact B|]. left. split; [reflexivity|]. exists c. split; [reflexivity|]. intro l. reflexivity.
  - destruct (iso_next i) as [q i1] eqn:E. destruct (iso_moved _ _ _ E B) as [B1 M]. destruct q as [c|].
    + destruct (cjk1_shape c) as (d & t & S & T). rewrite S in H. injection H as <- <-. split; [exact B1|]. cbn [rep_buf rep_src].
      destruct M as [(M1 & x & M2 & M3)|[(u & x & M1 & M2 & M3 & M4 & M5)|M]].
      * injection M2 as <-. left. split; [exact M1|]. exists d. split; [reflexivity|]. intro l. unfold Gr. cbn [rep_buf rep_src opt app]. rewrite M3. cbn [flat_map]. rewrite S. cbn [app]. now rewrite <- T.
      * injection M3 as <-. right. left. exists u, d. split; [exact M1|]. split; [exact M2|]. split; [reflexivity|]. split; [unfold Gr; cbn [rep_buf rep_src opt app]; now rewrite M4|].
        intro l. unfold Gr. cbn [rep_buf rep_src opt app]. rewrite M5. cbn [flat_map]. rewrite S. cbn [app]. now rewrite <- T.
      * right. right. exact M.
    + injection H as <- <-. split; [exact B1|]. cbn [rep_buf rep_src]. destruct M as [(M1 & x & M2 & M3)|[(u & x & M1 & M2 & M3 & M4 & M5)|M]]; [discriminate|discriminate|]. right. right. exact M.
Qed.
Definition bottom (s : safer) : source := iso_src (rep_src (safe_src s)).
Lemma safe_moved : forall s o s', safe_next s = (o, s') -> checking (bottom s) = true -> moved bottom Gs s o s'.
Proof.
  intros [r n b] o s' H B. unfold safe_next in H. cbn [safe_buf safe_src nonstarter_count] in H. unfold bottom in *. cbn [safe_src] in B.
  destruct (match b with Some c => (Some c, r) | None => rep_next r end) as [q r1] eqn:E.
  assert (M : checking (iso_src (rep_src r1)) = true /\
    ((iso_src (rep_src r1) = iso_src (rep_src r) /\ exists c, q = Some c /\ forall l, opt b ++ Gr r l = c :: Gr r1 l) \/
     (exists t c, chars (iso_src (rep_src r)) = t :: chars (iso_src (rep_src r1)) /\ cell (iso_src (rep_src r1)) = match check_basic_text_char t with Some e => Some e | None => cell (iso_src (rep_src r)) end /\ q = Some c /\
        opt b ++ Gr r [] = [] /\ forall l, opt b ++ Gr r (categorize1 t :: l) = c :: Gr r1 l) \/
     (iso_src (rep_src r1) = iso_src (rep_src r) /\ chars (iso_src (rep_src r)) = []))).
  { destruct b as [c|]; [injection E as <- <-; split; [exact B|]; left; split; [reflexivity|]; exists c; split; [reflexivity|]; intro l; reflexivity|]. exact (rep_moved _ _ _ E B). }
  destruct M as [B1 M].
  assert (ST : forall c, q = Some c -> forall tl1, exists y, o = Some y /\ iso_src (rep_src (safe_src s')) = iso_src (rep_src r1) /\ 
     stream_safe_go n (c :: tl1) = y :: stream_safe_go (nonstarter_count s') (opt (safe_buf s') ++ tl1) /\ safe_src s' = r1).
  { intros c -> tl1. cbn [stream_safe_go]. destruct (Nat.ltb MAX_NONSTARTERS (n + cl_leading c)) eqn:L; injection H as <- <-; eexists; (split; [reflexivity|]); (split; [reflexivity|]); cbn [safe_buf safe_src nonstarter_count opt app]; (split; [|reflexivity]); [|reflexivity].
    cbn [stream_safe_go]. replace (Nat.ltb MAX_NONSTARTERS (0 + cl_leading c)) with false; [reflexivity|]. pose proof (cl_leading_le c). unfold MAX_NONSTARTERS. symmetry. apply Nat.ltb_ge. lia. }
  assert (SB : iso_src (rep_src (safe_src s')) = iso_src (rep_src r1)) by (destruct q as [c|]; [destruct (Nat.ltb _ _) in H|]; injection H as <- <-; reflexivity).
  unfold moved. rewrite SB. cbn [safe_src]. split; [exact B1|].
  destruct M as [(M1 & c & M2 & M3)|[(t & c & M1 & M2 & M3 & M4 & M5)|M]].
  - left. split; [exact M1|]. destruct (ST c M2 []) as (y & Y1 & _ & _ & Y4). exists y. split; [exact Y1|]. intro l. unfold Gs. cbn [safe_src safe_buf nonstarter_count]. rewrite M3.
    destruct (ST c M2 (Gr r1 l)) as (y2 & Z1 & _ & Z3 & _). rewrite Z1 in Y1. injection Y1 as <-. rewrite Z3, Y4. reflexivity.
  - right. left. destruct (ST c M3 []) as (y & Y1 & _ & _ & Y4). exists t, y. split; [exact M1|]. split; [exact M2|]. split; [exact Y1|]. split; [unfold Gs; cbn [safe_src safe_buf nonstarter_count]; rewrite M4; reflexivity|].
    intro l. unfold Gs. cbn [safe_src safe_buf nonstarter_count]. rewrite M5. destruct (ST c M3 (Gr r1 l)) as (y2 & Z1 & _ & Z3 & _). rewrite Z1 in Y1. injection Y1 as <-. rewrite Z3, Y4. reflexivity.
  - right. right. exact M.
Qed.

(** * Starters *)
Definition Fs (l : list N) : list N := filter (fun c => ccc c =? 0) l.
Fixpoint past (f : list N) : option (list N) := match f with [] => None | c :: t => if c =? SUB then Some t else past t end.
Definition few (f : list N) : Prop := match past f with Some v => (length v < 2)%nat | None => True end.
Definition many (f : list N) : Prop := match past f with Some v => (2 <= length v)%nat | None => False end.
Lemma past_app : forall a b, past (a ++ b) = match past a with Some v => Some (v ++ b) | None => past b end.
Proof. induction a as [|c a IH]; intro b; cbn; [reflexivity|]. destruct (c =? SUB); [reflexivity|apply IH]. Qed.
Lemma past_none : forall f, past f = None <-> ~ In SUB f.
Proof.
  induction f as [|c f IH]; cbn; [tauto|]. destruct (N.eqb_spec c SUB) as [E|E]; [split; [discriminate|intro K; exfalso; apply K; now left]|]. rewrite IH. intuition.
Qed.
Lemma few_prefix : forall a b, few (a ++ b) -> few a.
Proof. intros a b. unfold few. rewrite past_app. destruct (past a) as [v|]; [rewrite app_length; lia|auto]. Qed.
Lemma many_prefix : forall a b, many a -> many (a ++ b).
Proof. intros a b. unfold many. rewrite past_app. destruct (past a) as [v|]; [rewrite app_length; lia|easy]. Qed.
Lemma Fs_app : forall a b, Fs (a ++ b) = Fs a ++ Fs b. Proof. intros. apply filter_app. Qed.
Lemma Fs_ins : forall l x, Fs (ins x l) = Fs (x :: l).
Proof.
  induction l as [|y l IH]; intro x; [reflexivity|]. cbn [ins]. destruct (negb (ccc y =? 0) && (ccc y <? ccc x)) eqn:C; [|reflexivity].
  cbn [Fs filter] in *. apply andb_true_iff in C. destruct C as [C1 C2]. apply negb_true_iff in C1. rewrite C1. unfold Fs in IH. rewrite IH. cbn [filter]. reflexivity.
Qed.
Lemma Fs_sort : forall p, Fs (sort_pending p) = Fs p.
Proof. induction p as [|c p IH]; [reflexivity|]. cbn [sort_pending fold_right]. fold (sort_pending p). rewrite Fs_ins. cbn [Fs filter]. unfold Fs in IH. now rewrite IH. Qed.

(** * Decomposition *)
Section Ahead.
Variable x : list N.
Definition low (T : list N) : Prop := forall T1 t T2, T = T1 ++ t :: T2 -> few (Fs (flat_map cd (G0 (categorize T1)))).
Definition core (s : safer) (T : list N) : Prop := x = T ++ chars (bottom s) /\ low T /\ cell (bottom s) = recorded T /\ checking (bottom s) = true.
Definition dg (d : decomposer) (T E : list N) : Prop :=
  core (dec_src d) T /\
  (chars (bottom (dec_src d)) = [] \/ exists Y, (forall l, G0 (categorize T ++ l) = Y ++ Gs (dec_src d) l) /\ Fs (flat_map cd Y) = Fs E ++ Fs (ready d) ++ Fs (waiting d)) /\
  (length (Fs (waiting d)) <= 1)%nat /\ (ready_end d = 0%nat \/ chars (bottom (dec_src d)) = [] \/ Fs (waiting d) <> []).
Definition quiet (E : list N) : Prop := past (Fs E) = None \/ past (Fs E) = Some [].

Lemma low_snoc : forall T t, low T -> few (Fs (flat_map cd (G0 (categorize T)))) -> low (T ++ [t]).
Proof.
  intros T t L F T1 u T2 E. destruct T2 as [|v T2 _] using rev_ind.
  - apply app_inj_tail in E. destruct E as [<- _]. exact F.
  - change (u :: T2 ++ [v]) with ((u :: T2) ++ [v]) in E. rewrite app_assoc in E. apply app_inj_tail in E. destruct E as [-> _]. eapply L. reflexivity.
Qed.
Lemma recorded_snoc : forall T t, recorded (T ++ [t]) = match check_basic_text_char t with Some e => Some e | None => recorded T end.
Proof. intros T t. rewrite recorded_app. unfold recorded at 1. cbn [fold_left]. destruct (check_basic_text_char t); reflexivity. Qed.

Lemma push_one : forall d c, dec_inv d -> (length (Fs (waiting d)) <= 1)%nat -> Fs (ready (push_back d c)) ++ Fs (waiting (push_back d c)) = Fs (ready d) ++ Fs (waiting d) ++ Fs [c] /\
  (length (Fs (waiting (push_back d c))) <= 1)%nat /\ (Fs (waiting d) <> [] -> Fs (waiting (push_back d c)) <> []) /\ (ready_end (push_back d c) = ready_end d \/ Fs (waiting (push_back d c)) <> []).
Proof.
  intros d c I L. destruct (push_spec d c I) as (P & _ & _). destruct (ccc c =? 0) eqn:C.
  - destruct P as [-> ->]. rewrite Fs_app, Fs_sort. cbn [Fs filter]. rewrite C. rewrite <- app_assoc. split; [reflexivity|]. split; [cbn; lia|]. split; [discriminate|right; discriminate].
  - destruct P as [-> P]. rewrite P. rewrite !Fs_app. cbn [Fs filter]. rewrite C, app_nil_r. split; [reflexivity|]. split; [exact L|]. split; [auto|left]. unfold push_back. rewrite C. reflexivity.
Qed.
Lemma push_many : forall l d, dec_inv d -> (length (Fs (waiting d)) <= 1)%nat -> let d' := fold_left push_back l d in
  Fs (ready d') ++ Fs (waiting d') = Fs (ready d) ++ Fs (waiting d) ++ Fs l /\ (length (Fs (waiting d')) <= 1)%nat /\ (Fs (waiting d) <> [] -> Fs (waiting d') <> []) /\
  (ready_end d' = ready_end d \/ Fs (waiting d') <> []).
Proof.
  induction l as [|c l IH]; intros d I L; [cbn; rewrite app_nil_r; auto|]. cbn [fold_left]. destruct (push_one d c I L) as (P1 & P2 & P3 & P4). destruct (push_spec d c I) as (_ & _ & I').
  destruct (IH _ I' P2) as (Q1 & Q2 & Q3 & Q4). cbn zeta in *. split.
  - rewrite Q1, app_assoc, P1, <- !app_assoc. f_equal. f_equal. rewrite <- Fs_app. reflexivity.
  - split; [exact Q2|]. split; [auto|]. destruct Q4 as [-> |Q4]; [|auto]. destruct P4 as [P4|P4]; auto.
Qed.
Lemma low_few : forall E f, quiet E -> (length f <= 1)%nat -> few (Fs E ++ f).
Proof.
  intros E f [Q|Q] L; unfold few; rewrite past_app, Q.
  - destruct f as [|a [|b f]]; cbn in *; [exact I| |lia]. destruct (a =? SUB); cbn; [lia|exact I].
  - cbn. lia.
Qed.

Lemma fill_ahead : forall fuel d T E, dec_inv d -> dg d T E -> quiet E -> (length (rest_safe (dec_src d)) < fuel)%nat ->
  exists T', dg (dec_fill fuel d) T' E /\ (ready_end (dec_fill fuel d) = 0%nat -> chars (bottom (dec_src (dec_fill fuel d))) = []).
Proof.
  induction fuel as [|fuel IH]; intros d T E I D Q L; [lia|]. cbn [dec_fill]. destruct (Nat.eqb_spec (ready_end d) 0) as [Z|Z]; [|exists T; split; [exact D|contradiction]].
  destruct (safe_next (dec_src d)) as [o s] eqn:EN. destruct (safe_rest _ _ _ EN (proj1 I)) as [SI R]. destruct D as ((C1 & C2 & C3 & C4) & D2 & D3 & D4).
  destruct (safe_moved _ _ _ EN C4) as [B M].
  assert (I0 : dec_inv (mkdec s (pending d) (ready_start d) (ready_end d))) by (destruct I as (_ & I2 & I3); split; [exact SI|split; assumption]).
  assert (RD : ready d = []) by (unfold ready; rewrite Z, firstn_O; apply skipn_nil).
  assert (STOP : chars (bottom s) = [] -> core s T -> exists T', dg (mkdec s (pending d) (ready_start d) (ready_end d)) T' E).
  { intros H1 H2. exists T. split; [exact H2|]. split; [left; exact H1|]. split; [exact D3|left; exact Z]. }
  destruct o as [c|].
  - assert (D0 : exists T', core s T' /\ (chars (bottom s) = [] \/ exists Y, (forall l, G0 (categorize T' ++ l) = Y ++ Gs s l) /\ Fs (flat_map cd Y) = Fs E ++ Fs (waiting d) ++ Fs (cd c))).
    { destruct M as [(M1 & y & M2 & M3)|[(t & y & M1 & M2 & M3 & M4 & M5)|[M1 M2]]].
      - injection M2 as <-. exists T. split; [split; [now rewrite M1|split; [exact C2|split; [now rewrite M1|exact B]]]|]. destruct D2 as [D2|(Y & Y1 & Y2)]; [left; now rewrite M1|]. right. exists (Y ++ [c]). split.
        + intro l. rewrite Y1, M3, <- app_assoc. reflexivity.
        + rewrite flat_map_app, Fs_app, Y2, RD. cbn [flat_map Fs filter app]. rewrite app_nil_r. now rewrite <- app_assoc.
      - injection M3 as <-. destruct D2 as [D2|(Y & Y1 & Y2)]; [rewrite M1 in D2; discriminate|]. rewrite RD in Y2. cbn [Fs filter app] in Y2.
        assert (EY : G0 (categorize T) = Y) by (specialize (Y1 []); rewrite M4, !app_nil_r in Y1; exact Y1).
        exists (T ++ [t]). split.
        + split; [rewrite C1, M1, <- app_assoc; reflexivity|]. split; [apply low_snoc; [exact C2|]|split; [|exact B]].
          * rewrite EY, Y2. now apply low_few.
          * rewrite M2, recorded_snoc, C3. reflexivity.
        + right. exists (Y ++ [c]). split.
          * intro l. unfold categorize. rewrite map_app, <- app_assoc. cbn [map app]. fold (categorize T). rewrite Y1, M5, <- app_assoc. reflexivity.
          * rewrite flat_map_app, Fs_app, Y2. cbn [flat_map]. rewrite app_nil_r. now rewrite <- app_assoc.
      - exists T. split; [split; [now rewrite M1|split; [exact C2|split; [now rewrite M1|exact B]]]|]. left. now rewrite M1. }
    destruct D0 as (T' & K1 & K2). destruct (push_all (cd c) _ I0) as (J & S & _). destruct (push_many (cd c) _ I0 D3) as (P1 & P2 & P3 & P4). cbn zeta in *.
    apply (IH _ T' E J).
    + set (e := fold_left push_back (cd c) (mkdec s (pending d) (ready_start d) (ready_end d))) in *. clearbody e. cbn [dec_src ready_end] in *. unfold dg. rewrite S. split; [exact K1|]. split; [|split; [exact P2|]].
      * destruct K2 as [K2|(Y & Y1 & Y2)]; [now left|right]. exists Y. split; [exact Y1|]. rewrite P1, Y2. f_equal.
        change (ready (mkdec s (pending d) (ready_start d) (ready_end d))) with (ready d). rewrite RD. reflexivity.
      * destruct P4 as [P4|P4]; [left; now rewrite P4|right; right; exact P4].
    + exact Q.
    + rewrite S. cbn [dec_src]. rewrite R in L. cbn in L. lia.
  - destruct M as [(M1 & y & M2 & M3)|[(t & y & M1 & M2 & M3 & M4 & M5)|[M1 M2]]]; [discriminate|discriminate|].
    exists T. assert (CS : chars (bottom s) = []) by now rewrite M1. destruct (dec_sort_spec _ I0) as (S1 & S2 & S3 & S4 & S5).
    split; [|intros _; rewrite S5; exact CS]. split; [rewrite S5; cbn [dec_src]; split; [now rewrite M1|split; [exact C2|split; [now rewrite M1|exact B]]]|].
    split; [left; rewrite S5; exact CS|]. split; [rewrite S2; cbn; lia|]. right. left. rewrite S5. exact CS.
Qed.

Lemma dec_ahead : forall fuel d o d' T E, dec_next fuel d = (o, d') -> dec_inv d -> dg d T E -> quiet E -> (length (rest_safe (dec_src d)) < fuel)%nat ->
  exists T', match o with
    | Some c => dg d' T' (E ++ [c]) /\ (chars (bottom (dec_src d')) = [] \/ Fs (waiting d') <> [])
    | None => core (dec_src d') T' /\ chars (bottom (dec_src d')) = []
    end.
Proof.
  intros fuel d o d' T E H I D Q L. unfold dec_next in H. destruct (fill_spec fuel d I L) as (J & _ & J2). destruct (fill_ahead fuel d T E I D Q L) as (T' & K1 & K2). cbn zeta in *.
  set (e := dec_fill fuel d) in *. clearbody e. exists T'. destruct K1 as (G1 & G2 & G3 & G4).
  destruct (nth_error (pending e) (ready_start e)) as [c|] eqn:EN; injection H as <- <-.
  - destruct J as (J0 & J1 & [[A B]|A]); [destruct (J2 B) as [P _]; rewrite P, A in EN; discriminate|].
    assert (W : waiting (increment_next_ready e) = waiting e /\ ready e = c :: ready (increment_next_ready e) /\ dec_src (increment_next_ready e) = dec_src e).
    { apply nth_error_split in EN. destruct EN as (l1 & l2 & E1 & E2). unfold ready, waiting, increment_next_ready.
      assert (F : firstn (ready_end e) (pending e) = l1 ++ c :: firstn (ready_end e - length l1 - 1) l2).
      { rewrite E1, firstn_app, (firstn_all2 l1) by lia. f_equal. destruct (ready_end e - length l1)%nat as [|m] eqn:M; [lia|]. cbn [firstn]. repeat f_equal. lia. }
      destruct (Nat.eqb_spec (S (ready_start e)) (ready_end e)) as [Z|Z]; cbn [dec_src pending ready_start ready_end]; rewrite F, <- E2; (split; [reflexivity|]); (split; [|reflexivity]).
      - replace (ready_end e - length l1 - 1)%nat with 0%nat by lia. rewrite firstn_O, skipn_app, skipn_all, Nat.sub_diag. reflexivity.
      - rewrite !skipn_app, skipn_all, Nat.sub_diag, (skipn_all2 l1) by lia. replace (S (length l1) - length l1)%nat with 1%nat by lia. reflexivity. }
    destruct W as (W1 & W2 & W3).
    assert (PW : chars (bottom (dec_src e)) = [] \/ Fs (waiting e) <> []) by (destruct G4 as [G4|G4]; [lia|exact G4]).
    split; [|rewrite W3, W1; exact PW]. unfold dg. rewrite W3, W1. split; [exact G1|]. split; [|split; [exact G3|now right]].
    destruct G2 as [G2|(Y & Y1 & Y2)]; [now left|right]. exists Y. split; [exact Y1|]. rewrite Y2, W2, Fs_app, <- app_assoc. f_equal. change (c :: ready (increment_next_ready e)) with ([c] ++ ready (increment_next_ready e)). rewrite Fs_app, <- app_assoc. reflexivity.
  - split; [exact G1|]. apply K2. apply nth_error_None in EN. destruct J as (_ & J1 & [[_ B]|A]); [exact B|lia].
Qed.

(** * Recomposition *)
Definition rg (r : recomposer) (T E : list N) : Prop :=
  Forall (fun c => ccc c <> 0) (rec_buf r) /\
  match rec_state r with
  | Finished _ => core (dec_src (rec_src r)) T /\ chars (bottom (dec_src (rec_src r))) = []
  | _ => dg (rec_src r) T E /\ match composee r with None => past (Fs E) = None | Some k => (past (Fs E) = None /\ k <> SUB) \/ (past (Fs E) = Some [] /\ k = SUB) end
  end.
Definition stopped (s : safer) (T : list N) : Prop := core s T /\ (chars (bottom s) = [] \/ many (Fs (flat_map cd (G0 (categorize T))))).

Lemma ccc_SUB : ccc SUB = 0. Proof. exact (proj1 (b_inert _ boring_SUB)). Qed.
Lemma compose_SUB : forall c, compose SUB c = None. Proof. exact (proj2 (proj2 (proj2 (b_inert _ boring_SUB)))). Qed.
Lemma compose_SUB2 : forall k, compose k SUB = None. Proof. exact (proj1 (proj2 (proj2 (b_inert _ boring_SUB)))). Qed.
Lemma compose_not_SUB : forall k c r, compose k c = Some r -> r <> SUB.
Proof. intros k c r H ->. apply compose_kept in H. discriminate. Qed.
Lemma composee_quiet : forall E k, (past (Fs E) = None /\ k <> SUB) \/ (past (Fs E) = Some [] /\ k = SUB) -> quiet E.
Proof. intros E k [[H _]|[H _]]; [now left|now right]. Qed.
Lemma past_snoc : forall E c, past (Fs (E ++ [c])) = match past (Fs E) with Some v => Some (v ++ Fs [c]) | None => if (ccc c =? 0) && (c =? SUB) then Some [] else None end.
Proof. intros E c. rewrite Fs_app, past_app. destruct (past (Fs E)); [reflexivity|]. cbn [Fs filter]. destruct (ccc c =? 0); [|reflexivity]. cbn. now destruct (c =? SUB). Qed.

Lemma rec_ahead : forall fuel r o r' T E, rec_next fuel r = (o, r') -> rec_inv r -> (need_fuel r <= fuel)%nat -> rg r T E ->
  match o with
  | Some c => if c =? SUB then exists T', stopped (dec_src (rec_src r')) T' else exists T' E', rg r' T' E'
  | None => True
  end.
Proof.
  induction fuel as [|fuel IH]; intros r o r' T E H I L G; [destruct (rec_state r) eqn:ES; unfold need_fuel in L; rewrite ES in L; lia|].
  destruct r as [d st b k l]. destruct I as [I1 I2]. destruct G as [GB G]. unfold need_fuel in L. cbn [rec_next rec_src rec_state rec_buf composee last_ccc] in *. destruct st as [|n|n].
  - destruct (dec_next fuel d) as [q d1] eqn:EN. assert (LF0 : (length (rest_safe (dec_src d)) < fuel)%nat) by lia.
    destruct (dec_next_spec _ _ _ _ EN I1 LF0) as [J R]. pose proof (dec_src_shrinks _ _ _ _ EN I1) as SH. destruct G as [G GK].
    assert (QE : quiet E) by (destruct k as [k|]; [exact (composee_quiet _ _ GK)|now left]).
    destruct (dec_ahead _ _ _ _ _ _ EN I1 G QE LF0) as (T1 & A). destruct q as [ch|].
    + destruct A as [A1 A2]. rewrite R in L. cbn [length] in L.
      assert (GO : forall v, rec_inv v -> rec_src v = d1 -> rec_state v = Composing -> Forall (fun c => ccc c <> 0) (rec_buf v) ->
        match composee v with None => past (Fs (E ++ [ch])) = None | Some k => (past (Fs (E ++ [ch])) = None /\ k <> SUB) \/ (past (Fs (E ++ [ch])) = Some [] /\ k = SUB) end -> rec_next fuel v = (o, r') ->
        match o with Some c => if c =? SUB then exists T', stopped (dec_src (rec_src r')) T' else exists T' E', rg r' T' E' | None => True end).
      { intros v V1 V2 V3 V4 V5 V6. apply (IH v o r' T1 (E ++ [ch]) V6 V1); [unfold need_fuel; rewrite V2, V3; lia|]. split; [exact V4|]. rewrite V3, V2. split; [exact A1|exact V5]. }
      assert (MANY : past (Fs E) = Some [] -> ccc ch = 0 -> stopped (dec_src d1) T1).
      { intros P C. destruct A1 as (A3 & A4 & A5 & A6). split; [exact A3|]. destruct A2 as [A2|A2]; [now left|]. destruct A4 as [A4|(Y & Y1 & Y2)]; [now left|]. right.
        specialize (Y1 []). rewrite app_nil_r in Y1. rewrite Y1, flat_map_app, Fs_app. apply many_prefix. rewrite Y2. unfold many. rewrite past_app, past_snoc, P. cbn [Fs filter]. rewrite C. cbn [N.eqb app].
        change (0 =? 0) with true. cbn [app length]. rewrite !app_length. destruct (Fs (waiting d1)); [contradiction|cbn [length]; lia]. }
      destruct k as [k|].
      * assert (NEXT : ccc ch <> 0 -> (past (Fs (E ++ [ch])) = None /\ k <> SUB) \/ (past (Fs (E ++ [ch])) = Some [] /\ k = SUB)).
        { intro C. rewrite past_snoc. cbn [Fs filter]. replace (ccc ch =? 0) with false by (symmetry; now apply N.eqb_neq). destruct GK as [[-> K]|[-> K]]; [left|right]; auto. }
        assert (STEP : forall v, compose k ch = Some v -> (past (Fs (E ++ [ch])) = None /\ v <> SUB) \/ (past (Fs (E ++ [ch])) = Some [] /\ v = SUB)).
        { intros v C. left. split; [|exact (compose_not_SUB _ _ _ C)]. rewrite past_snoc. destruct GK as [[-> K]|[_ K]]; [|subst k; rewrite compose_SUB in C; discriminate].
          destruct (N.eqb_spec ch SUB) as [-> |X]; [rewrite compose_SUB2 in C; discriminate|now rewrite andb_false_r]. }
        assert (OUT : forall st' b' l', ccc ch = 0 -> (st' = Composing \/ exists m, st' = Purging m) -> Forall (fun c => ccc c <> 0) b' -> (Some k, mkrec d1 st' b' (Some ch) l') = (o, r') ->
          match o with Some c => if c =? SUB then exists T', stopped (dec_src (rec_src r')) T' else exists T' E', rg r' T' E' | None => True end).
        { intros st' b' l' C S F X. injection X as <- <-. destruct GK as [[P K]|[P K]].
          - replace (k =? SUB) with false by (symmetry; now apply N.eqb_neq). exists T1, (E ++ [ch]). split; [exact F|].
            assert (Q : dg d1 T1 (E ++ [ch]) /\ ((past (Fs (E ++ [ch])) = None /\ ch <> SUB) \/ (past (Fs (E ++ [ch])) = Some [] /\ ch = SUB))).
            { split; [exact A1|]. rewrite past_snoc, P, C. change (0 =? 0) with true. cbn [andb]. destruct (N.eqb_spec ch SUB); auto. }
            destruct S as [-> |[m ->]]; exact Q.
          - subst k. rewrite N.eqb_refl. exists T1. exact (MANY P C). }
        destruct l as [l|].
        -- destruct (ccc ch <=? l) eqn:C1.
           ++ destruct (N.eqb_spec (ccc ch) 0) as [C2|C2].
              ** exact (OUT _ _ _ C2 (or_intror (ex_intro _ _ eq_refl)) GB H).
              ** apply GO in H; [exact H|split; [exact J|cbn; discriminate]|reflexivity|reflexivity|apply Forall_app; auto|exact (NEXT C2)].
           ++ destruct (compose k ch) as [v|] eqn:CO.
              ** apply GO in H; [exact H|split; [exact J|cbn; discriminate]|reflexivity|reflexivity|exact GB|exact (STEP v eq_refl)].
              ** assert (C2 : ccc ch <> 0) by lia. apply GO in H; [exact H|split; [exact J|cbn; discriminate]|reflexivity|reflexivity|apply Forall_app; auto|exact (NEXT C2)].
        -- specialize (I2 eq_refl). subst b. destruct (compose k ch) as [v|] eqn:CO.
           ++ apply GO in H; [exact H|split; [exact J|cbn; reflexivity]|reflexivity|reflexivity|exact GB|exact (STEP v eq_refl)].
           ++ destruct (N.eqb_spec (ccc ch) 0) as [C2|C2].
              ** exact (OUT _ _ _ C2 (or_introl eq_refl) GB H).
              ** apply GO in H; [exact H|split; [exact J|cbn; discriminate]|reflexivity|reflexivity|apply Forall_app; auto|exact (NEXT C2)].
      * destruct I2 as [-> ->]. destruct (N.eqb_spec (ccc ch) 0) as [C2|C2].
        -- apply GO in H; [exact H|split; [exact J|cbn; reflexivity]|reflexivity|reflexivity|exact GB|]. cbn [composee]. rewrite past_snoc, GK, C2. change (0 =? 0) with true. cbn [andb]. destruct (N.eqb_spec ch SUB); auto.
        -- injection H as <- <-. destruct (N.eqb_spec ch SUB) as [-> |X]; [now rewrite ccc_SUB in C2|]. exists T1, (E ++ [ch]). split; [exact GB|]. cbn [rec_state rec_src composee]. split; [exact A1|].
           rewrite past_snoc, GK. now replace (ch =? SUB) with false by (symmetry; now apply N.eqb_neq); rewrite andb_false_r.
    + destruct R as [R1 R2]. destruct A as [A1 A2]. destruct k as [k|].
      * injection H as <- <-. destruct (k =? SUB); [exists T1; split; [exact A1|now left]|]. exists T1, E. split; [exact GB|]. cbn [rec_state rec_src]. auto.
      * destruct I2 as [-> ->]. apply (IH _ _ _ T1 E H).
        -- split; [exact J|cbn; auto].
        -- unfold need_fuel. cbn [rec_src rec_state]. rewrite R2. rewrite R1 in L. cbn [length] in *. lia.
        -- split; [exact GB|]. cbn [rec_state rec_src]. auto.
  - destruct I2 as [K ->]. destruct k as [k|]; [|now destruct K]. clear K. destruct (nth_error b n) as [c|] eqn:EN.
    + injection H as <- <-. apply nth_error_In in EN. pose proof (proj1 (Forall_forall _ _) GB _ EN) as C. destruct (N.eqb_spec c SUB) as [-> |_]; [now rewrite ccc_SUB in C|]. exists T, E. split; [exact GB|exact G].
    + apply (IH _ _ _ T E H); [split; [exact I1|cbn; auto]|unfold need_fuel; cbn [rec_src rec_state]; lia|]. split; [constructor|exact G].
  - destruct I2 as [-> R]. destruct (nth_error b n) as [c|] eqn:EN; injection H as <- <-; [|exact I]. destruct (c =? SUB); [exists T; split; [exact (proj1 G)|left; exact (proj2 G)]|]. exists T, E. split; [exact GB|exact G].
Qed.
End Ahead.
