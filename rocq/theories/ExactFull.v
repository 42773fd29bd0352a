(** Exactly when an exact read fills its buffer. *)
From Coq Require Import NArith Arith List Bool Lia.
From Verif Require Import Base Chars TextUtils Utf8 Utf8Facts Input ReadFacts ReadSession SpecText TextFacts SpecRead ReadProps SpecAscii AsciiProps ScalarFacts Copy CopyProps ExactProps SpecExact ExactBuf.
Import ListNotations.
Local Open Scope N_scope.

(** * Filling a smaller buffer from the same queue *)
Lemma drain_end : forall f room i cs j, drain f room i = (cs, true, j) -> queue_next j = None.
Proof.
  induction f as [|f IH]; intros room i cs j H; cbn [drain] in H; [discriminate|]. destruct (queue_next i) as [[c i']|] eqn:E; [|injection H as <- <-; exact E].
  destruct (Nat.ltb _ _); [discriminate|]. destruct (drain f (room - utf8_len c) i') as [[cs' e'] j'] eqn:ED. injection H as <- -> <-. exact (IH _ _ _ _ ED).
Qed.
Lemma drain_enough : forall f room i cs j, drain f room i = (cs, true, j) -> forall g b, (b <= g)%nat -> (str_len cs + 4 <= b)%nat -> drain g b i = (cs, true, j).
Proof.
  induction f as [|f IH]; intros room i cs j H g b G B; cbn [drain] in H; [discriminate|]. destruct g as [|g]; [lia|]. cbn [drain].
  destruct (queue_next i) as [[c i']|] eqn:E; [|exact H]. destruct (Nat.ltb (room - utf8_len c) _); [discriminate|].
  destruct (drain f (room - utf8_len c) i') as [[cs' e'] j'] eqn:ED. injection H as <- -> <-. pose proof (utf8_len_pos c) as P.
  assert (SL : str_len (c :: cs') = (utf8_len c + str_len cs')%nat) by reflexivity. 
  rewrite (proj2 (Nat.ltb_ge _ _)) by (unfold MAX_UTF8_SIZE; rewrite SL in *; lia). rewrite (IH _ _ _ _ ED g (b - utf8_len c)%nat); [reflexivity|lia|rewrite SL in *; lia].
Qed.
Lemma drain_short : forall f room i cs j, drain f room i = (cs, true, j) -> forall g b, (4 <= b)%nat -> (b <= g)%nat -> (b < str_len cs + 4)%nat ->
  exists p q k, cs = p ++ q /\ drain g b i = (p, false, k) /\ (str_len p <= b)%nat /\ (b < str_len p + 4)%nat.
Proof.
  induction f as [|f IH]; intros room i cs j H g b B4 G B; cbn [drain] in H; [discriminate|]. destruct g as [|g]; [lia|]. cbn [drain].
  destruct (queue_next i) as [[c i']|] eqn:E; [|injection H as <- <-; cbn in B; lia]. destruct (Nat.ltb (room - utf8_len c) _); [discriminate|].
  destruct (drain f (room - utf8_len c) i') as [[cs' e'] j'] eqn:ED. injection H as <- -> <-. pose proof (utf8_len_pos c) as P.
  assert (SL : forall u, str_len (c :: u) = (utf8_len c + str_len u)%nat) by reflexivity. rewrite SL in B. unfold MAX_UTF8_SIZE. destruct (Nat.ltb (b - utf8_len c) 4) eqn:EB.
  - apply Nat.ltb_lt in EB. exists [c], cs', i'. split; [reflexivity|]. split; [reflexivity|]. rewrite SL. cbn [str_len]. cbn. lia.
  - apply Nat.ltb_ge in EB. destruct (IH _ _ _ _ ED g (b - utf8_len c)%nat) as (p & q & k & -> & D & L1 & L2); [lia|lia|lia|].
    exists (c :: p), q, k. rewrite D. split; [reflexivity|]. split; [reflexivity|]. rewrite SL. lia.
Qed.

(** * A reader that has given everything *)
Definition settled (i : input) : Prop := wf i /\ pending i = Active /\ queue_next i = None.
Lemma settled_new : forall nel lsps, settled (new_input nel lsps).
Proof. intros nel lsps. split; [apply wf_new|]. split; reflexivity. Qed.
Lemma expect_next : forall i e, queue_next i = None -> queue_next (set_expect i e) = None.
Proof.
  intros i e H. unfold queue_next in *. cbn [quick queue iter set_expect] in *. destruct (quick i) as [|n]; [|destruct (queue i); [reflexivity|discriminate]].
  destruct (iter i); [|discriminate]. destruct (last_boundary (queue i)); [|reflexivity]. destruct (_ && _); [destruct (queue i); [reflexivity|discriminate]|].
  destruct (pipeline _); [reflexivity|discriminate].
Qed.
Lemma settled_drain : forall b i, settled i -> (0 < b)%nat -> drain b b i = ([], true, i).
Proof. intros b i (_ & _ & Q) B. destruct b; [lia|]. cbn [drain]. now rewrite Q. Qed.
Lemma settled_step : forall i sc b, settled i -> (136 <= b)%nat -> read i sc b =
  match inner_read sc with
  | (None, sc') => (RErr, [], i, sc')
  | (Some (raw, s), sc') => let '(cs, e, i3) := drain b b (finish (process_raw i raw) s) in
      if e then (ROk (str_len cs) s, cs, (if is_active s then i3 else set_expect i3 true), sc') else (ROk (str_len cs) Active, cs, set_pending i3 s, sc')
  end.
Proof.
  intros i sc b SI B. unfold read. rewrite (proj2 (Nat.ltb_ge _ _)) by (unfold NORMALIZATION_BUFFER_SIZE, MAX_UTF8_SIZE, NORMALIZATION_BUFFER_LEN; lia).
  rewrite settled_drain by (auto; lia). cbn [negb str_len]. destruct SI as (_ & P & _). rewrite P. cbn [is_active negb]. change (str_len []) with 0%nat. rewrite Nat.sub_0_r.
  destruct (inner_read sc) as [[[raw s]|] sc']; [|reflexivity]. destruct (drain b b _) as [[cs e] i3]. cbn [app]. now destruct e.
Qed.
Lemma settled_ok : forall i sc b n s cs j sc', settled i -> read i sc b = (ROk n s, cs, j, sc') -> (str_len cs + 4 <= b)%nat ->
  n = str_len cs /\ settled j /\ (exists raw, inner_read sc = (Some (raw, s), sc')) /\
  (forall b', (136 <= b')%nat -> (str_len cs + 4 <= b')%nat -> read i sc b' = (ROk n s, cs, j, sc')) /\
  (forall b', (136 <= b')%nat -> (b' < str_len cs + 4)%nat -> exists p q k, cs = p ++ q /\ read i sc b' = (ROk (str_len p) Active, p, k, sc') /\ (str_len p <= b')%nat /\ (b' < str_len p + 4)%nat).
Proof.
  intros i sc b n s cs j sc' SI H L. destruct (Nat.ltb b NORMALIZATION_BUFFER_SIZE) eqn:EB; [unfold read in H; rewrite EB in H; discriminate|].
  apply Nat.ltb_ge in EB. assert (B : (136 <= b)%nat) by (unfold NORMALIZATION_BUFFER_SIZE, MAX_UTF8_SIZE, NORMALIZATION_BUFFER_LEN in EB; lia). clear EB.
  pose proof (read_wf _ _ _ _ _ _ _ (proj1 SI) H) as WJ. rewrite settled_step in H by auto. destruct (inner_read sc) as [[[raw s0]|] sc0] eqn:EI; [|discriminate].
  destruct (drain b b (finish (process_raw i raw) s0)) as [[cs0 e] i3] eqn:ED.
  assert (C0 : cs0 = cs) by (destruct e; now injection H). subst cs0.
  destruct e; [|destruct (drain_room _ _ _ _ _ _ (Nat.le_trans 4 136 b ltac:(lia) B) ED) as (_ & _ & _ & R4); specialize (R4 eq_refl (le_n b)); lia].
  injection H as <- <- <- <-.
  assert (PJ : pending i3 = Active).
  { destruct SI as (W & P & Q). pose proof (queue_next_spec i W) as QS. rewrite Q in QS. destruct QS as (_ & Q1 & _ & Q2).
    destruct (absorb_input i raw s0 W Q2 Q1 ltac:(now rewrite P)) as (W2 & _ & P2 & _).
    destruct (drain_spec _ _ _ _ _ _ W2 ED) as (_ & _ & _ & (S1 & _) & _). congruence. }
  split; [reflexivity|]. split; [|split; [now exists raw|split]].
  - split; [exact WJ|]. pose proof (drain_end _ _ _ _ _ ED) as QE. destruct (is_active s0); [now split|]. split; [exact PJ|now apply expect_next].
  - intros b' B' L'. rewrite settled_step by auto. rewrite EI, (drain_enough _ _ _ _ _ ED b' b' (le_n b') L'). reflexivity.
  - intros b' B' L'. rewrite settled_step by auto. rewrite EI. destruct (drain_short _ _ _ _ _ ED b' b') as (p & q & k & E & D & L1 & L2); [lia|lia|lia|].
    exists p, q, (set_pending k s0). rewrite D. auto.
Qed.

(** * The result of an exact read *)
Definition piece (B : nat) (r : read_result * list N) : Prop := exists n s, fst r = ROk n s /\ (str_len (snd r) + 4 <= B)%nat.
Lemma fits_short : forall l room, (room < 136)%nat -> ~ fits l room.
Proof. intros l room R (before & p & c & q & after & _ & _ & L & _). lia. Qed.
Lemma fits_later : forall cs l room, (str_len cs < room)%nat -> (fits (cs :: l) room <-> fits l (room - str_len cs)).
Proof.
  intros cs l room L. split.
  - intros (before & p & c & q & after & E & A & L1 & L2). destruct before as [|x before]; cbn [app concat] in *.
    + injection E as -> _. rewrite str_len_app in L. cbn in L. rewrite str_len_app in L2. cbn in L2. lia.
    + injection E as <- E. exists before, p, c, q, after. rewrite !str_len_app in *. split; [exact E|]. split; [exact A|]. lia.
  - intros (before & p & c & q & after & E & A & L1 & L2). exists (cs :: before), p, c, q, after. cbn [app concat]. rewrite !str_len_app in *. split; [now rewrite E|].
    split; [exact A|]. lia.
Qed.
Lemma at_end : forall i sc b n cs j sc', settled i -> read i sc b = (ROk n End, cs, j, sc') -> (str_len cs + 4 <= b)%nat ->
  (forall sizes rs k l, reads j sc' sizes = (rs, k, l) -> delivered rs = []) -> forall b', (136 <= b')%nat -> exists k, read j sc' b' = (ROk 0 End, [], k, []).
Proof.
  intros i sc b n cs j sc' SI H L NA b' B'. destruct (settled_ok _ _ _ _ _ _ _ _ SI H L) as (_ & SJ & (raw & EI) & _).
  assert (sc' = []) as -> by (destruct sc as [|[c0 [| |]|] t]; cbn in EI; try congruence; now injection EI).
  destruct (read j [] b') as [[[r cs2] k] l] eqn:R. pose proof (NA [b'] [(r, cs2)] k l) as D. cbn [reads] in D. rewrite R in D. specialize (D eq_refl). unfold delivered in D. cbn in D. rewrite app_nil_r in D. subst cs2.
  rewrite settled_step in R by auto. cbn [inner_read] in R. destruct (drain b' b' _) as [[cs2 e] i3] eqn:ED. destruct e.
  - injection R as <- -> <- <-. eexists. reflexivity.
  - destruct (drain_room _ _ _ _ _ _ (Nat.le_trans 4 136 b' ltac:(lia) B') ED) as (_ & _ & NN & _). specialize (NN eq_refl ltac:(lia)). injection R as _ -> _ _. congruence.
Qed.
Lemma short_fails : forall intr f i sc room, (0 < room < 136)%nat -> exists t j sc', read_exact intr (S f) i sc room = Some (ExactErr, t, j, sc').
Proof.
  intros intr f i sc room [R1 R2]. rewrite exact_step by exact R1. unfold read. rewrite (proj2 (Nat.ltb_lt _ _)) by (unfold NORMALIZATION_BUFFER_SIZE, MAX_UTF8_SIZE, NORMALIZATION_BUFFER_LEN; lia).
  cbn. do 3 eexists. reflexivity.
Qed.
(** nothing is left *)
Definition over (i : input) (sc : list event) : Prop := forall sizes rs k l, reads i sc sizes = (rs, k, l) -> delivered rs = [].
Lemma over_none : forall rs i sc B k l, over i sc -> reads i sc (repeat B (length rs)) = (rs, k, l) -> str_len (concat (map snd rs)) = 0%nat.
Proof. intros rs i sc B k l O R. specialize (O _ _ _ _ R). unfold delivered in O. rewrite flat_map_concat_map in O. now rewrite O. Qed.
Theorem exact_outcome : forall B rs i sc j rest fuel room, settled i -> reads i sc (repeat B (length rs)) = (rs, j, rest) -> Forall (piece B) rs -> reached_end rs ->
  (forall n m cs i1 sc1, reads i sc (repeat B n) = (m, i1, sc1) -> (exists x, m = x ++ [(ROk (str_len cs) End, cs)]) -> over i1 sc1) -> (0 < room)%nat -> (length rs < fuel)%nat ->
  exists e t k l, read_exact false fuel i sc room = Some (e, t, k, l) /\
  match e with
  | ExactOk => fits (map snd rs) room
  | ExactEof => (str_len (concat (map snd rs)) + 136 <= room)%nat
  | ExactErr => ~ fits (map snd rs) room /\ (room < str_len (concat (map snd rs)) + 136)%nat
  end.
Proof.
  intros B. induction rs as [|[r cs] rs IH]; intros i sc j rest fuel room SI R P RE NA RP F; [destruct RE as ([|? ?] & ? & ? & E); discriminate|].
  destruct (Nat.lt_ge_cases room 136) as [SH|RG].
  { destruct fuel as [|f]; [lia|]. destruct (short_fails false f i sc room (conj RP SH)) as (t & k & l & E). exists ExactErr, t, k, l. split; [exact E|]. split; [now apply fits_short|lia]. }
  destruct fuel as [|f]; [lia|]. cbn [length repeat reads] in R. destruct (read i sc B) as [[[r0 cs0] i1] sc1] eqn:ER. destruct (reads i1 sc1 (repeat B (length rs))) as [[rs' j'] rest'] eqn:RR.
  injection R as -> -> -> -> ->. inversion P as [|? ? (n & s & EN & LB) P']; subst. cbn [fst snd] in EN, LB. subst r.
  destruct (settled_ok _ _ _ _ _ _ _ _ SI ER LB) as (-> & SJ & _ & BIG & SMALL). cbn [map snd concat]. rewrite str_len_app. rewrite exact_step by exact RP.
  assert (OV : s = End -> over i1 sc1).
  { intros ->. apply (NA 1%nat [(ROk (str_len cs) End, cs)] cs); [cbn [repeat reads]; now rewrite ER|now exists []]. }
  destruct (Nat.lt_ge_cases room (str_len cs + 4)) as [C|C].
  - (* the piece does not fit *)
    destruct (SMALL room RG C) as (p & q & k & -> & RS & L1 & L2). rewrite RS. assert (SN : exists m, str_len p = S m) by (exists (str_len p - 1)%nat; lia). destruct SN as [m SN]. rewrite SN. cbn [std_result].
    rewrite <- SN. destruct (Nat.eq_dec (str_len p) room) as [EQ|NE].
    + rewrite EQ, Nat.sub_diag. destruct f as [|f]; [cbn [length] in F; lia|]. cbn [read_exact]. exists ExactOk. do 3 eexists. split; [reflexivity|].
      rewrite EQ in RS. destruct (read_full _ _ _ _ _ _ _ (proj1 SI) RS) as (u & c & -> & A).
      exists [], u, c, q, (map snd rs). split; [now rewrite <- app_assoc|]. split; [exact A|]. cbn [concat app]. split; [cbn; lia|exact EQ].
    + destruct f as [|f]; [cbn [length] in F; lia|]. destruct (short_fails false f k sc1 (room - str_len p)%nat) as (t & k' & l & E); [lia|]. rewrite E. exists ExactErr. do 3 eexists. split; [reflexivity|].
      split; [|rewrite str_len_app; lia]. intros (before & p0 & c & q0 & after & E0 & A & M1 & M2). destruct before as [|x before]; cbn [app concat] in *.
      * injection E0 as E0 _. rewrite str_len_app in M2. assert (U4 : str_len [c] = 4%nat).
        { cbn. unfold utf8_len. rewrite (proj2 (N.ltb_ge _ _)) by lia. rewrite (proj2 (N.ltb_ge _ _)) by lia. rewrite (proj2 (N.ltb_ge _ _)) by lia. reflexivity. }
        assert (P1 : (str_len p0 < str_len p)%nat) by lia.
        assert (EX : exists w, p = p0 ++ c :: w).
        { clear - E0 P1. revert p E0 P1. induction p0 as [|y p0 IHp]; intros p E0 P1; cbn [app] in E0.
          - destruct p as [|z p]; [cbn in P1; lia|]. injection E0 as -> _. now exists p.
          - destruct p as [|z p]; [cbn in P1; lia|]. injection E0 as -> E0. destruct (IHp p E0) as [w ->]; [cbn in P1; lia|]. now exists w. }
        destruct EX as [w EW]. rewrite EW in L1, NE. change (c :: w) with ([c] ++ w) in L1, NE. rewrite !str_len_app in L1, NE. lia.
      * injection E0 as <- _. rewrite !str_len_app in M1. lia.
  - (* the piece fits *)
    rewrite (BIG room RG C). destruct (str_len cs) as [|m] eqn:EM.
    + assert (cs = []) as -> by (destruct cs as [|x cs]; [reflexivity|]; pose proof (utf8_len_pos x); cbn in EM; lia). destruct s; cbn [std_result].
      * (* retry *)
        destruct rs as [|r2 rs]; [destruct RE as ([|? [|? ?]] & ? & ? & E); cbn in E; congruence|].
        destruct (IH i1 sc1 j rest f room SJ RR P') as (e & t & k & l & E & K); [destruct RE as ([|? x] & n1 & c1 & E); cbn in E; [congruence|]; injection E as _ E; now exists x, n1, c1| | |cbn [length] in *; lia|].
        -- intros n0 m0 c0 i2 sc2 R2 [x EX]. apply (NA (S n0) ((ROk 0 Active, []) :: m0) c0); [cbn [repeat reads]; now rewrite ER, R2|]. exists ((ROk 0 Active, []) :: x). now rewrite EX.
        -- exact RP.
        -- exists e, t, k, l. split; [exact E|]. assert (FI : fits ([] :: map snd (r2 :: rs)) room <-> fits (map snd (r2 :: rs)) room) by (rewrite fits_later by (cbn; lia); change (str_len []) with 0%nat; now rewrite Nat.sub_0_r).
           destruct e; rewrite ?FI; exact K.
      * destruct rs as [|r2 rs]; [destruct RE as ([|? [|? ?]] & ? & ? & E); cbn in E; congruence|].
        destruct (IH i1 sc1 j rest f room SJ RR P') as (e & t & k & l & E & K); [destruct RE as ([|? x] & n1 & c1 & E); cbn in E; [congruence|]; injection E as _ E; now exists x, n1, c1| | |cbn [length] in *; lia|].
        -- intros n0 m0 c0 i2 sc2 R2 [x EX]. apply (NA (S n0) ((ROk 0 Push, []) :: m0) c0); [cbn [repeat reads]; now rewrite ER, R2|]. exists ((ROk 0 Push, []) :: x). now rewrite EX.
        -- exact RP.
        -- exists e, t, k, l. split; [exact E|]. assert (FI : fits ([] :: map snd (r2 :: rs)) room <-> fits (map snd (r2 :: rs)) room) by (rewrite fits_later by (cbn; lia); change (str_len []) with 0%nat; now rewrite Nat.sub_0_r).
           destruct e; rewrite ?FI; exact K.
      * exists ExactEof. do 3 eexists. split; [reflexivity|]. rewrite (over_none _ _ _ _ _ _ (OV eq_refl) RR). lia.
    + rewrite <- EM in *. assert (SR : std_result false (ROk (str_len cs) s) = SOk (S m)) by (rewrite EM; destruct s; reflexivity). rewrite SR. rewrite <- EM.
      assert (FI : fits (cs :: map snd rs) room <-> fits (map snd rs) (room - str_len cs)) by (apply fits_later; lia).
      destruct rs as [|r2 rs].
      * (* the last read *)
        assert (s = End) as -> by (destruct RE as ([|? [|? ?]] & ? & ? & E); cbn in E; congruence). destruct (Nat.lt_ge_cases (room - str_len cs) 136) as [S1|S1].
        -- destruct f as [|f]; [cbn [length] in F; lia|]. destruct (short_fails false f i1 sc1 (room - str_len cs)%nat) as (t & k' & l & E); [lia|]. rewrite E. exists ExactErr. do 3 eexists. split; [reflexivity|].
           split; [rewrite FI; now apply fits_short|lia].
        -- destruct f as [|f]; [cbn [length] in F; lia|]. rewrite exact_step by lia. destruct (at_end _ _ _ _ _ _ _ SI ER LB (OV eq_refl) _ S1) as [k E]. rewrite E. cbn [std_result]. exists ExactEof. do 3 eexists. split; [reflexivity|]. cbn. lia.
      * destruct (IH i1 sc1 j rest f (room - str_len cs)%nat SJ RR P') as (e & t & k & l & E & K); [destruct RE as ([|? x] & n1 & c1 & E); cbn in E; [congruence|]; injection E as _ E; now exists x, n1, c1| |lia|cbn [length] in *; lia|].
        -- intros n0 m0 c0 i2 sc2 R2 [x EX]. apply (NA (S n0) ((ROk (str_len cs) s, cs) :: m0) c0); [cbn [repeat reads]; now rewrite ER, R2|]. exists ((ROk (str_len cs) s, cs) :: x). now rewrite EX.
        -- rewrite E. exists e. do 3 eexists. split; [reflexivity|]. destruct e; rewrite ?FI; [exact K|lia|]. split; [exact (proj1 K)|lia].
Qed.

(** * From a new reader *)
Lemma read_no_fail : forall i sc b r cs j sc', no_fail sc -> read i sc b = (r, cs, j, sc') -> r <> RErr /\ no_fail sc'.
Proof.
  intros i sc b r cs j sc' NF H. unfold read in H. destruct (Nat.ltb _ _); [injection H as <- _ _ <-; split; [discriminate|exact NF]|]. destruct (drain b b i) as [[cs1 e1] i1].
  destruct e1; cbn [negb] in H; [|injection H as <- _ _ <-; split; [discriminate|exact NF]]. destruct (negb (is_active (pending i1))); [injection H as <- _ _ <-; split; [discriminate|exact NF]|].
  assert (NI : fst (inner_read sc) <> None /\ no_fail (snd (inner_read sc))).
  { unfold no_fail in *. destruct sc as [|[c s|] t]; cbn; [split; [discriminate|tauto]|destruct s; cbn in *; split; try discriminate; try tauto|exfalso; apply NF; now left]. }
  destruct (inner_read sc) as [[[raw s]|] sc1]; cbn [fst snd] in NI; [|now destruct NI]. destruct (drain _ _ _) as [[cs2 e2] i3]. destruct e2; injection H as <- _ _ <-; (split; [discriminate|exact (proj2 NI)]).
Qed.
Lemma read_invalid : forall i sc b cs j sc', read i sc b = (RInvalid, cs, j, sc') -> (b < 136)%nat.
Proof.
  intros i sc b cs j sc' H. unfold read in H. destruct (Nat.ltb b NORMALIZATION_BUFFER_SIZE) eqn:E; [apply Nat.ltb_lt in E; unfold NORMALIZATION_BUFFER_SIZE, MAX_UTF8_SIZE, NORMALIZATION_BUFFER_LEN in E; lia|].
  destruct (drain b b i) as [[cs1 e1] i1]. destruct e1; cbn [negb] in H; [|discriminate]. destruct (negb (is_active (pending i1))); [discriminate|].
  destruct (inner_read sc) as [[[raw s]|] sc1]; [|discriminate]. destruct (drain _ _ _) as [[cs2 e2] i3]. destruct e2; discriminate.
Qed.
Lemma pieces_of : forall k B i sc rs j rest, (136 <= B)%nat -> no_fail sc -> reads i sc (repeat B k) = (rs, j, rest) -> Forall (fun r => (str_len (snd r) + 4 <= B)%nat) rs ->
  length rs = k /\ Forall (piece B) rs.
Proof.
  induction k as [|k IH]; intros B i sc rs j rest LB NF R F; cbn [repeat reads] in R; [injection R as <- _ _; split; [reflexivity|constructor]|].
  destruct (read i sc B) as [[[r cs] i1] sc1] eqn:ER. destruct (reads i1 sc1 (repeat B k)) as [[rs' j'] rest'] eqn:RR. injection R as <- <- <-. inversion F as [|? ? F1 F2]; subst.
  destruct (read_no_fail _ _ _ _ _ _ _ NF ER) as [NR NF1]. destruct (IH _ _ _ _ _ _ LB NF1 RR F2) as [L P]. split; [cbn; now rewrite L|]. constructor; [|exact P].
  destruct r as [n s| |]; [now exists n, s|apply read_invalid in ER; lia|congruence].
Qed.
Lemma over_after : forall nel lsps script sizes rs j rest, reads (new_input nel lsps) script sizes = (rs, j, rest) -> reached_end rs -> over j rest.
Proof.
  intros nel lsps script sizes rs j rest R RE sizes2 rs2 k l K. pose proof (reads_both _ _ _ _ _ _ _ _ _ _ R K) as H2.
  destruct (proj1 (sizes_do_not_matter _ _ _ _ _ _ _ _ _ _ _ R H2 RE)) as [more E].
  unfold delivered in E at 2. rewrite flat_map_app in E. fold (delivered rs) in E. fold (delivered rs2) in E. rewrite <- (app_nil_r (delivered rs)) in E at 1. rewrite <- app_assoc in E.
  apply app_inv_head in E. symmetry in E. now apply app_eq_nil in E.
Qed.
Theorem exact_result_iff : forall nel lsps script B k rs j rest, no_fail script -> reads (new_input nel lsps) script (repeat B k) = (rs, j, rest) -> reached_end rs ->
  Forall (fun r => (str_len (snd r) + 4 <= B)%nat) rs -> forall blen fuel, (0 < blen)%nat -> (k < fuel)%nat ->
  exists e t i sc, read_exact false fuel (new_input nel lsps) script blen = Some (e, t, i, sc) /\
  (e = ExactOk <-> fits (map snd rs) blen) /\ (e = ExactEof <-> (str_len (delivered rs) + 136 <= blen)%nat).
Proof.
  intros nel lsps script B k rs j rest NF R RE F blen fuel BL FU.
  assert (LB : (136 <= B)%nat).
  { destruct (Nat.lt_ge_cases B 136) as [S|G]; [|exact G]. exfalso. destruct RE as (rs' & n & cs & E).
    assert (AL : forall k i sc rs j rest, reads i sc (repeat B k) = (rs, j, rest) -> Forall (fun r => fst r = RInvalid) rs).
    { clear - S. induction k as [|k IH]; intros i sc rs j rest R; cbn [repeat reads] in R; [injection R as <- _ _; constructor|]. destruct (read i sc B) as [[[r cs] i1] sc1] eqn:ER.
      destruct (reads i1 sc1 (repeat B k)) as [[rs' j'] rest'] eqn:RR. injection R as <- _ _. constructor; [|exact (IH _ _ _ _ _ RR)]. unfold read in ER.
      rewrite (proj2 (Nat.ltb_lt _ _)) in ER by (unfold NORMALIZATION_BUFFER_SIZE, MAX_UTF8_SIZE, NORMALIZATION_BUFFER_LEN; lia). now injection ER as <- _ _ _. }
    specialize (AL _ _ _ _ _ _ R). rewrite E in AL. apply Forall_app in AL. destruct AL as [_ AL]. inversion AL; subst. discriminate. }
  destruct (pieces_of _ _ _ _ _ _ _ LB NF R F) as [L P]. rewrite <- L in R, FU.
  destruct (exact_outcome B rs _ _ _ _ fuel blen (settled_new nel lsps) R P RE) as (e & t & i & sc & E & K); [|exact BL|exact FU|].
  - intros n m cs i1 sc1 R1 [x ->]. apply (over_after _ _ _ _ _ _ _ R1). now exists x, (str_len cs), cs.
  - exists e, t, i, sc. split; [exact E|]. assert (D : delivered rs = concat (map snd rs)) by apply flat_map_concat_map. rewrite D.
    assert (FT : fits (map snd rs) blen -> (blen <= str_len (concat (map snd rs)))%nat).
    { intros (before & p & c & q & after & E1 & _ & _ & L2). rewrite E1, concat_app. cbn [concat]. change (c :: q) with ([c] ++ q). rewrite !str_len_app in *. lia. }
    destruct e; (split; split; intro Q); try discriminate; try reflexivity; try exact K; try (exfalso; try specialize (FT K); try specialize (FT Q); try tauto; lia).
Qed.
Theorem large_buffers : forall nel lsps script, exists B0, forall B, (B0 <= B)%nat -> exists k rs j rest, reads (new_input nel lsps) script (repeat B k) = (rs, j, rest) /\ reached_end rs /\
  Forall (fun r => (str_len (snd r) + 4 <= B)%nat) rs.
Proof.
  intros nel lsps script. destruct (session_terminates nel lsps script) as [n T].
  assert (LG : forall B, (136 <= B)%nat -> exists k rs j rest, reads (new_input nel lsps) script (repeat B k) = (rs, j, rest) /\ reached_end rs).
  { intros B LB. destruct (T (repeat B n)) as (k & rs & j & rest & R & RE); [apply Forall_forall; intros x X; apply repeat_spec in X; now subst|rewrite repeat_length; lia|].
    exists (Nat.min k n), rs, j, rest. split; [|exact RE]. rewrite <- R. f_equal. clear. revert n. induction k as [|k IH]; intros [|n]; cbn; try reflexivity. now rewrite IH. }
  destruct (LG 136%nat (le_n 136)) as (k0 & rs0 & j0 & rest0 & R0 & RE0). exists (str_len (delivered rs0) + 136)%nat. intros B LB.
  destruct (LG B) as (k & rs & j & rest & R & RE); [lia|]. exists k, rs, j, rest. split; [exact R|]. split; [exact RE|].
  destruct (proj1 (sizes_do_not_matter _ _ _ _ _ _ _ _ _ _ _ R0 R RE0)) as [more E]. apply Forall_forall. intros r IN.
  assert (LE : (str_len (snd r) <= str_len (delivered rs))%nat).
  { clear - IN. induction rs as [|x rs IH]; [destruct IN|]. unfold delivered. cbn [flat_map]. rewrite str_len_app. destruct IN as [->|IN]; [lia|]. specialize (IH IN). unfold delivered in IH. lia. }
  rewrite E, str_len_app in LB. lia.
Qed.
