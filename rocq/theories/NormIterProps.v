(** The iterators deliver the conversions of the lists. *)
From Coq Require Import NArith Arith List Bool Lia ZifyBool ZifyNat ZifyN.
From Verif Require Import Base Ucd UcdTables Norm Chars TextTables TextUtils UcdFacts NormFacts CharFacts Output Errors NormIter.
Import ListNotations.
Local Open Scope N_scope.
Arguments N.add : simpl never.
Arguments N.leb : simpl never.
Arguments N.ltb : simpl never.
Arguments N.eqb : simpl never.
Arguments cjk1 : simpl never.
Arguments cd : simpl never.

Definition opt (o : option N) : list N := match o with Some c => [c] | None => [] end.

(** * What the lower iterators still deliver *)
Definition seen (b : bool) (l : list N) : list N := if b then categorize l else l.
Definition rest_source (s : source) : list N := seen (checking s) (chars s).
Definition rest_iso (i : isolater) : list N := opt (deferred i) ++ isolate_go (need_cgj i) (have_cgj i) (rest_source (iso_src i)).
Definition rest_rep (r : replacer) : list N := opt (rep_buf r) ++ flat_map cjk1 (rest_iso (rep_src r)).
Definition rest_safe (s : safer) : list N := stream_safe_go (nonstarter_count s) (opt (safe_buf s) ++ rest_rep (safe_src s)).
Definition safe_inv (s : safer) : Prop := safe_buf s = None \/ nonstarter_count s = 0%nat.

Lemma source_rest : forall s o s', source_next s = (o, s') -> match o with Some c => rest_source s = c :: rest_source s' | None => rest_source s = [] /\ s' = s end /\ checking s' = checking s.
Proof.
  intros [cs [|] e] o s' H; unfold source_next in H; cbn [chars checking cell] in H; destruct cs as [|c t]; try (injection H as <- <-; split; reflexivity || (split; reflexivity)).
  unfold rest_source, seen. cbn [chars checking categorize map]. unfold categorize1 at 1. destruct (check_basic_text_char c); injection H as <- <-; split; reflexivity.
Qed.
Lemma iso_rest : forall i o i', iso_next i = (o, i') -> match o with Some c => rest_iso i = c :: rest_iso i' | None => rest_iso i = [] /\ rest_iso i' = [] end.
Proof.
  intros [s n h [c|]] o i' H; unfold iso_next in H; cbn [deferred iso_src need_cgj have_cgj] in H.
  - injection H as <- <-. reflexivity.
  - destruct (source_next s) as [o1 s1] eqn:E. apply source_rest in E. destruct E as [E _]. unfold rest_iso. cbn [deferred iso_src need_cgj have_cgj opt app]. destruct o1 as [c|].
    + rewrite E. cbn [isolate_go]. destruct ((n && negb (c =? CGJ)) || (negb (is_assigned c) && negb h)); injection H as <- <-; reflexivity.
    + destruct E as [E ->]. rewrite E. cbn [isolate_go]. destruct n; injection H as <- <-; cbn [deferred iso_src need_cgj have_cgj opt app]; rewrite E; cbn; auto.
Qed.
Lemma cjk1_shape : forall c, exists d t, cjk1 c = d :: t /\ t = opt (head_opt t).
Proof. intro c. unfold cjk1. destruct (c <=? 0x7F); [exists c, []; auto|]. destruct (cjk_variant c) as [[b v]|]; eexists; eexists; split; reflexivity. Qed.
Lemma rep_rest : forall r o r', rep_next r = (o, r') -> match o with Some c => rest_rep r = c :: rest_rep r' | None => rest_rep r = [] /\ rest_rep r' = [] end.
Proof.
  intros [i [c|]] o r' H; unfold rep_next in H; cbn [rep_buf rep_src] in H.
  - injection H as <- <-. reflexivity.
  - destruct (iso_next i) as [o1 i1] eqn:E. apply iso_rest in E. unfold rest_rep. cbn [rep_buf rep_src opt app]. destruct o1 as [c|].
    + rewrite E. cbn [flat_map]. destruct (cjk1_shape c) as (d & t & S & T). rewrite S in *. injection H as <- <-. cbn [rep_buf rep_src app]. now rewrite <- T.
    + injection H as <- <-. cbn [rep_buf rep_src opt app]. destruct E as [-> ->]. auto.
Qed.
Lemma safe_rest : forall s o s', safe_next s = (o, s') -> safe_inv s -> safe_inv s' /\ match o with Some c => rest_safe s = c :: rest_safe s' | None => rest_safe s = [] /\ rest_safe s' = [] end.
Proof.
  intros [r n b] o s' H I. unfold safe_inv in I. cbn [safe_buf nonstarter_count] in I. unfold safe_next in H. cbn [safe_buf safe_src nonstarter_count] in H.
  unfold rest_safe at 1 2. unfold rest_safe. cbn [safe_buf safe_src nonstarter_count].
  destruct (match b with Some c => (Some c, r) | None => rep_next r end) as [o1 r1] eqn:E.
  assert (R : match o1 with Some c => opt b ++ rest_rep r = c :: rest_rep r1 | None => opt b ++ rest_rep r = [] /\ rest_rep r1 = [] end).
  { destruct b as [c|]; [injection E as <- <-; reflexivity|]. apply rep_rest in E. exact E. }
  destruct o1 as [c|].
  - rewrite R. cbn [stream_safe_go]. destruct (Nat.ltb MAX_NONSTARTERS (n + cl_leading c)) eqn:L; injection H as <- <-; unfold safe_inv; cbn [safe_buf safe_src nonstarter_count opt app]; (split; [auto|]); [|reflexivity].
    cbn [stream_safe_go]. replace (Nat.ltb MAX_NONSTARTERS (0 + cl_leading c)) with false; [reflexivity|]. pose proof (cl_leading_le c). unfold MAX_NONSTARTERS. symmetry. apply Nat.ltb_ge. lia.
  - injection H as <- <-. unfold safe_inv. cbn [safe_buf safe_src nonstarter_count opt app]. destruct R as [-> ->]. auto.
Qed.

(** * Decomposition *)
Definition ready (d : decomposer) : list N := skipn (ready_start d) (firstn (ready_end d) (pending d)).
Definition waiting (d : decomposer) : list N := skipn (ready_end d) (pending d).
Definition dec_inv (d : decomposer) : Prop :=
  safe_inv (dec_src d) /\ (ready_end d <= length (pending d))%nat /\ ((ready_start d = 0 /\ ready_end d = 0) \/ ready_start d < ready_end d)%nat.
Definition rest_dec (d : decomposer) : list N := ready d ++ order_go (waiting d) (flat_map cd (rest_safe (dec_src d))).

Lemma sort_starter : forall c p, ccc c = 0 -> sort_pending (c :: p) = c :: sort_pending p.
Proof.
  intros c p H. cbn [sort_pending fold_right]. fold (sort_pending p). destruct (sort_pending p) as [|y t]; [reflexivity|]. cbn [ins]. rewrite H.
  replace (ccc y <? 0) with false by (symmetry; apply N.ltb_ge; lia). now rewrite andb_false_r.
Qed.
Lemma order_starter : forall t c p, ccc c = 0 -> order_go (c :: p) t = c :: order_go p t.
Proof.
  induction t as [|x t IH]; intros c p H; cbn [order_go]; [now apply sort_starter|]. destruct (ccc x =? 0); [rewrite sort_starter by exact H; reflexivity|].
  rewrite <- (IH c (p ++ [x]) H). reflexivity.
Qed.
Lemma sort_length : forall l, length (sort_pending l) = length l.
Proof.
  induction l as [|c l IH]; [reflexivity|]. cbn [sort_pending fold_right length]. fold (sort_pending l). rewrite <- IH. generalize (sort_pending l). clear. induction l as [|y t IH]; [reflexivity|].
  cbn [ins]. destruct (_ && _); cbn [length]; [now rewrite IH|reflexivity].
Qed.
Lemma dec_sort_spec : forall d, dec_inv d -> ready (dec_sort d) = ready d ++ sort_pending (waiting d) /\ waiting (dec_sort d) = [] /\ (ready_end (dec_sort d) = length (pending (dec_sort d)))%nat /\
  ready_start (dec_sort d) = ready_start d /\ dec_src (dec_sort d) = dec_src d.
Proof.
  intros [s p a b] (_ & L & R). unfold ready, waiting, dec_sort in *. cbn [dec_src pending ready_start ready_end] in *.
  assert (E : length (firstn b p ++ sort_pending (skipn b p)) = length p) by (rewrite app_length, sort_length, <- app_length, firstn_skipn; reflexivity).
  split; [|split; [|split; [now rewrite E|auto]]].
  - rewrite <- E, firstn_all, skipn_app. f_equal. rewrite firstn_length. replace (a - Nat.min b (length p))%nat with 0%nat by lia. reflexivity.
  - rewrite <- E. apply skipn_all.
Qed.
Lemma push_spec : forall d c, dec_inv d -> 
  (if ccc c =? 0 then ready (push_back d c) = ready d ++ sort_pending (waiting d) /\ waiting (push_back d c) = [c] else ready (push_back d c) = ready d /\ waiting (push_back d c) = waiting d ++ [c]) /\
  dec_src (push_back d c) = dec_src d /\ dec_inv (push_back d c).
Proof.
  intros d c I. pose proof (dec_sort_spec d I) as (S1 & S2 & S3 & S4 & S5). destruct I as (I1 & I2 & I3). unfold push_back.
  destruct (ccc c =? 0).
  - set (e := dec_sort d) in *. assert (SE : ((ready_start e = 0 /\ ready_end e = 0) \/ ready_start e < ready_end e)%nat).
    { rewrite S4. destruct I3 as [[A B]|A]; [|right; rewrite S3; unfold e, dec_sort; cbn [pending]; rewrite app_length, sort_length, <- app_length, firstn_skipn; lia].
      destruct (length (pending e)) eqn:Q; [left; split; [exact A|lia]|right; lia]. }
    clearbody e. unfold ready, waiting, dec_inv in *. cbn [dec_src pending ready_start ready_end].
    split; [split|split; [exact S5|split; [now rewrite S5|split; [rewrite app_length; lia|exact SE]]]].
    + rewrite firstn_app, S3, Nat.sub_diag, firstn_O, app_nil_r. rewrite <- S3 at 1. exact S1.
    + rewrite skipn_app, S3, Nat.sub_diag. rewrite <- S3 at 1. rewrite S2. reflexivity.
  - unfold ready, waiting, dec_inv. cbn [dec_src pending ready_start ready_end]. split; [split|split; [reflexivity|split; [exact I1|split; [rewrite app_length; lia|exact I3]]]].
    + rewrite firstn_app. replace (ready_end d - length (pending d))%nat with 0%nat by lia. rewrite firstn_O, app_nil_r. reflexivity.
    + rewrite skipn_app. replace (ready_end d - length (pending d))%nat with 0%nat by lia. reflexivity.
Qed.
Lemma push_all : forall l d, dec_inv d -> let d' := fold_left push_back l d in dec_inv d' /\ dec_src d' = dec_src d /\
  forall t, ready d' ++ order_go (waiting d') t = ready d ++ order_go (waiting d) (l ++ t).
Proof.
  induction l as [|c l IH]; intros d I; [cbn; auto|]. cbn [fold_left]. destruct (push_spec d c I) as (P & S & I'). destruct (IH _ I') as (J & S' & K). cbn zeta in *.
  split; [exact J|]. split; [now rewrite S'|]. intro t. rewrite K. cbn [app order_go]. destruct (ccc c =? 0) eqn:C.
  - destruct P as [-> ->]. rewrite order_starter by lia. now rewrite <- app_assoc.
  - destruct P as [-> ->]. reflexivity.
Qed.
Lemma fill_spec : forall fuel d, dec_inv d -> (length (rest_safe (dec_src d)) < fuel)%nat -> let d' := dec_fill fuel d in
  dec_inv d' /\ rest_dec d' = rest_dec d /\ (ready_end d' = 0%nat -> pending d' = [] /\ rest_safe (dec_src d') = []).
Proof.
  induction fuel as [|fuel IH]; intros d I L; [lia|]. cbn [dec_fill]. destruct (Nat.eqb_spec (ready_end d) 0) as [Z|Z]; [|cbn; split; [exact I|split; [reflexivity|contradiction]]].
  destruct (safe_next (dec_src d)) as [o s] eqn:E. destruct (safe_rest _ _ _ E (proj1 I)) as [SI R]. 
  assert (I0 : dec_inv (mkdec s (pending d) (ready_start d) (ready_end d))) by (destruct I as (_ & I2 & I3); split; [exact SI|split; assumption]).
  destruct o as [c|].
  - destruct (push_all (cd c) _ I0) as (J & S & K). cbn zeta in *. set (e := fold_left push_back (cd c) (mkdec s (pending d) (ready_start d) (ready_end d))) in *. clearbody e.
    destruct (IH e J) as (J2 & R2 & Q2); [rewrite S; cbn [dec_src]; rewrite R in L; cbn in L; lia|]. cbn zeta in *. split; [exact J2|]. split; [|exact Q2].
    rewrite R2. unfold rest_dec at 1. rewrite K, S. unfold rest_dec. rewrite R. cbn [dec_src flat_map]. unfold ready, waiting. cbn [pending ready_start ready_end]. reflexivity.
  - destruct R as [R1 R2]. destruct (dec_sort_spec _ I0) as (S1 & S2 & S3 & S4 & S5). cbn zeta. set (e := dec_sort _) in *. cbn [dec_src ready_start pending] in S4, S5.
    assert (LE : length (pending e) = length (pending d)) by (unfold e, dec_sort; cbn [pending ready_end]; rewrite app_length, sort_length, <- app_length, firstn_skipn; reflexivity).
    split; [|split].
    + split; [now rewrite S5|]. split; [lia|]. rewrite S4. destruct I as (_ & _ & [[A B]|A]); [|lia]. destruct (length (pending e)) eqn:Q; [left; split; [exact A|lia]|right; lia].
    + unfold rest_dec. rewrite S1, S2, S5, R1, R2. cbn [flat_map order_go sort_pending fold_right]. unfold ready, waiting. cbn [pending ready_start ready_end]. now rewrite app_nil_r.
    + intro K. rewrite S3 in K. apply length_zero_iff_nil in K. split; [exact K|]. now rewrite S5.
Qed.
Lemma dec_next_spec : forall fuel d o d', dec_next fuel d = (o, d') -> dec_inv d -> (length (rest_safe (dec_src d)) < fuel)%nat ->
  dec_inv d' /\ match o with Some c => rest_dec d = c :: rest_dec d' | None => rest_dec d = [] /\ rest_dec d' = [] end.
Proof.
  intros fuel d o d' H I L. unfold dec_next in H. destruct (fill_spec fuel d I L) as (J & R & Q). cbn zeta in *. set (e := dec_fill fuel d) in *. clearbody e. clear I L.
  destruct (nth_error (pending e) (ready_start e)) as [c|] eqn:E.
  - injection H as <- <-. destruct J as (J1 & J2 & J3). destruct J3 as [[A B]|A].
    { destruct (Q B) as [P _]. rewrite P, A in E. discriminate. }
    apply nth_error_split in E. destruct E as (l1 & l2 & E1 & E2). rewrite <- R. unfold rest_dec, ready, waiting, increment_next_ready, dec_inv in *.
    assert (F : firstn (ready_end e) (pending e) = l1 ++ c :: firstn (ready_end e - length l1 - 1) l2).
    { rewrite E1, firstn_app, (firstn_all2 l1) by lia. f_equal. destruct (ready_end e - length l1)%nat as [|m] eqn:M; [lia|]. cbn [firstn]. repeat f_equal. lia. }
    destruct (Nat.eqb_spec (S (ready_start e)) (ready_end e)) as [Z|Z]; cbn [dec_src pending ready_start ready_end].
    + split; [split; [exact J1|split; [lia|left; auto]]|]. rewrite F. replace (ready_end e - length l1 - 1)%nat with 0%nat by lia. rewrite firstn_O, <- E2, skipn_app, skipn_all, Nat.sub_diag. reflexivity.
    + split; [split; [exact J1|split; [lia|right; lia]]|]. rewrite F. rewrite <- E2. rewrite !skipn_app, skipn_all, Nat.sub_diag. rewrite (skipn_all2 l1) by lia.
      replace (S (length l1) - length l1)%nat with 1%nat by lia. reflexivity.
  - injection H as <- <-. split; [exact J|]. apply nth_error_None in E. destruct J as (J1 & J2 & [[A B]|A]); [|lia]. destruct (Q B) as [P S]. rewrite <- R.
    unfold rest_dec, ready, waiting. rewrite P, S, A, B. auto.
Qed.

(** * Recomposition *)
Definition rec_inv (r : recomposer) : Prop :=
  dec_inv (rec_src r) /\
  match rec_state r with
  | Composing => match composee r with None => rec_buf r = [] /\ last_ccc r = None | Some _ => last_ccc r = None -> rec_buf r = [] end
  | Purging _ => composee r <> None /\ last_ccc r = None
  | Finished _ => composee r = None /\ rest_dec (rec_src r) = []
  end.
Definition rest_rec (r : recomposer) : list N :=
  match rec_state r with
  | Composing => match composee r with None => recomp (rest_dec (rec_src r)) | Some k => rc k (rec_buf r) (last_ccc r) (rest_dec (rec_src r)) end
  | Purging n => skipn n (rec_buf r) ++ match composee r with None => [] | Some k => rc k [] None (rest_dec (rec_src r)) end
  | Finished n => skipn n (rec_buf r)
  end.
Definition todo (r : recomposer) : nat := length (rest_dec (rec_src r)) + length (rest_safe (dec_src (rec_src r))).
Definition need_fuel (r : recomposer) : nat :=
  length (rest_dec (rec_src r)) + length (rest_safe (dec_src (rec_src r))) + match rec_state r with Composing => 2 | Purging _ => 3 | Finished _ => 1 end.

Lemma dec_src_shrinks : forall fuel d o d', dec_next fuel d = (o, d') -> dec_inv d -> (length (rest_safe (dec_src d')) <= length (rest_safe (dec_src d)))%nat.
Proof.
  intros fuel d o d' H I. unfold dec_next in H.
  assert (F : (length (rest_safe (dec_src (dec_fill fuel d))) <= length (rest_safe (dec_src d)))%nat).
  { clear H. revert d I. induction fuel as [|fuel IH]; intros d I; [cbn; lia|]. cbn [dec_fill]. destruct (Nat.eqb_spec (ready_end d) 0) as [Z|Z]; [|cbn; lia].
    destruct (safe_next (dec_src d)) as [q s] eqn:E. destruct (safe_rest _ _ _ E (proj1 I)) as [SI R].
    assert (I0 : dec_inv (mkdec s (pending d) (ready_start d) (ready_end d))) by (destruct I as (_ & I2 & I3); split; [exact SI|split; assumption]).
    destruct q as [c|].
    - destruct (push_all (cd c) _ I0) as (J & S & _). cbn zeta in *. specialize (IH _ J). rewrite S in IH. cbn [dec_src] in IH. rewrite R. cbn. lia.
    - cbn [dec_sort dec_src]. destruct R as [-> ->]. lia. }
  destruct (nth_error _ _); injection H as <- <-; [|exact F]. unfold increment_next_ready. destruct (Nat.eqb _ _); exact F.
Qed.
Lemma nth_skipn : forall (l : list N) n c, nth_error l n = Some c -> skipn n l = c :: skipn (S n) l.
Proof. induction l as [|x l IH]; intros [|n] c H; cbn in *; try discriminate; [now injection H as ->|now apply IH]. Qed.
Lemma rec_next_spec : forall fuel r o r', rec_next fuel r = (o, r') -> rec_inv r -> (need_fuel r <= fuel)%nat ->
  rec_inv r' /\ (todo r' <= todo r)%nat /\ match o with Some c => rest_rec r = c :: rest_rec r' | None => rest_rec r = [] /\ rest_rec r' = [] end.
Proof.
  induction fuel as [|fuel IH]; intros r o r' H I L; [destruct (rec_state r) eqn:E; unfold need_fuel in L; rewrite E in L; lia|].
  destruct r as [d st b k l]. destruct I as [I1 I2]. unfold need_fuel in L. cbn [rec_next rec_src rec_state rec_buf composee last_ccc] in *. destruct st as [|n|n].
  - destruct (dec_next fuel d) as [q d1] eqn:E. assert (LF0 : (length (rest_safe (dec_src d)) < fuel)%nat) by lia.
    destruct (dec_next_spec _ _ _ _ E I1 LF0) as [J R]. pose proof (dec_src_shrinks _ _ _ _ E I1) as SH.
    change (rest_rec (mkrec d Composing b k l)) with (match k with None => recomp (rest_dec d) | Some k => rc k b l (rest_dec d) end). destruct q as [ch|].
    + rewrite R in L. cbn [length] in L.
      assert (GO : forall v, rec_inv v -> rec_src v = d1 /\ rec_state v = Composing -> rec_next fuel v = (o, r') ->
        rec_inv r' /\ (todo r' <= todo (mkrec d Composing b k l))%nat /\ match o with Some c => rest_rec v = c :: rest_rec r' | None => rest_rec v = [] /\ rest_rec r' = [] end).
      { intros v V1 [V2 V4] V3. destruct (IH v o r' V3 V1) as (A & B & C); [unfold need_fuel; rewrite V2, V4; lia|]. split; [exact A|]. split; [|exact C]. unfold todo at 2. unfold todo at 2 in B. rewrite V2 in B. cbn [rec_src rec_state] in *. rewrite R. cbn [length]. lia. }
      assert (NF : forall st' b' k' l', (todo (mkrec d1 st' b' k' l') <= todo (mkrec d Composing b k l))%nat).
      { intros st' b' k' l'. unfold todo. cbn [rec_src rec_state]. rewrite R. cbn [length]. lia. }
      destruct k as [k|].
      * destruct l as [l|].
        -- rewrite R. cbn [rc]. destruct (ccc ch <=? l) eqn:C1.
           ++ destruct (ccc ch =? 0) eqn:C2.
              ** injection H as <- <-. split; [split; [exact J|]; cbn; split; [discriminate|reflexivity]|]. split; [apply NF|]. unfold rest_rec. cbn [rec_src rec_state rec_buf composee last_ccc skipn]. reflexivity.
              ** apply GO in H; [exact H|split; [exact J|cbn; discriminate]|split; reflexivity].
           ++ destruct (compose k ch) as [x|]; (apply GO in H; [exact H|split; [exact J|cbn; discriminate]|split; reflexivity]).
        -- specialize (I2 eq_refl). subst b. rewrite R. cbn [rc]. destruct (compose k ch) as [x|].
           ++ apply GO in H; [exact H|split; [exact J|cbn; reflexivity]|split; reflexivity].
           ++ destruct (ccc ch =? 0) eqn:C2.
              ** injection H as <- <-. split; [split; [exact J|]; cbn; reflexivity|]. split; [apply NF|]. reflexivity.
              ** apply GO in H; [exact H|split; [exact J|cbn; discriminate]|split; reflexivity].
      * destruct I2 as [-> ->]. rewrite R. cbn [recomp]. destruct (ccc ch =? 0) eqn:C2.
        -- apply GO in H; [exact H|split; [exact J|cbn; reflexivity]|split; reflexivity].
        -- injection H as <- <-. split; [split; [exact J|]; cbn; auto|]. split; [apply NF|]. reflexivity.
    + destruct R as [R1 R2]. rewrite R1 in *. destruct k as [k|].
      * injection H as <- <-. split; [split; [exact J|]; cbn; auto|]. split; [unfold todo; cbn [rec_src rec_state]; rewrite R1, R2; cbn [length]; lia|].
        unfold rest_rec. cbn [rec_src rec_state rec_buf composee last_ccc skipn]. rewrite ?R1. reflexivity.
      * destruct I2 as [-> ->]. destruct (IH _ _ _ H) as (A & B & C).
        -- split; [exact J|cbn; auto].
        -- unfold need_fuel. cbn [rec_src rec_state]. rewrite R2. lia.
        -- split; [exact A|]. split; [|exact C]. unfold todo at 2. unfold todo at 2 in B. cbn [rec_src rec_state] in *. rewrite R1, R2 in *. cbn [length] in *. lia.
  - destruct I2 as [K ->]. destruct k as [k|]; [|now destruct K]. clear K. destruct (nth_error b n) as [c|] eqn:E.
    + injection H as <- <-. split; [split; [exact I1|cbn; split; [discriminate|reflexivity]]|]. split; [unfold todo; cbn [rec_src rec_state]; lia|].
      unfold rest_rec. cbn [rec_src rec_state rec_buf composee last_ccc]. rewrite (nth_skipn _ _ _ E). reflexivity.
    + destruct (IH _ _ _ H) as (A & B & C).
      * split; [exact I1|cbn; auto].
      * unfold need_fuel. cbn [rec_src rec_state]. lia.
      * split; [exact A|]. split; [unfold todo at 2; unfold todo at 2 in B; cbn [rec_src rec_state] in *; lia|].
        change (rest_rec (mkrec d (Purging n) b (Some k) None)) with (skipn n b ++ rc k [] None (rest_dec d)). rewrite (skipn_all2 b) by (now apply nth_error_None). exact C.
  - destruct I2 as [-> R]. destruct (nth_error b n) as [c|] eqn:E.
    + injection H as <- <-. split; [split; [exact I1|cbn; auto]|]. split; [unfold todo; cbn [rec_src rec_state]; lia|].
      unfold rest_rec. cbn [rec_src rec_state rec_buf composee last_ccc]. rewrite (nth_skipn _ _ _ E). reflexivity.
    + injection H as <- <-. split; [split; [exact I1|cbn; auto]|]. split; [unfold todo; cbn [rec_src rec_state]; lia|].
      unfold rest_rec. cbn [rec_src rec_state rec_buf composee last_ccc]. rewrite (skipn_all2 b) by (now apply nth_error_None). now rewrite skipn_nil.
Qed.
