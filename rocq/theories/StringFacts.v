(** Facts about Strings.v: byte positions, the error position, from_text. *)
From Coq Require Import NArith Arith List Bool Lia ZifyBool ZifyNat ZifyN.
From Verif Require Import Base Ucd UcdTables Norm Chars TextTables TextUtils UcdFacts NormFacts CharFacts DocTable SpecText TextFacts PipelineFacts
  IsoFacts KeepFacts Utf8 Input Output SpecWrite WriteFacts Strings.
Import ListNotations.
Local Open Scope N_scope.
Arguments N.add : simpl never.
Arguments N.leb : simpl never.
Arguments N.ltb : simpl never.
Arguments N.eqb : simpl never.
Local Opaque pipeline.

(** * Byte positions *)
Lemma utf8_len_pos : forall c, (1 <= utf8_len c <= 4)%nat.
Proof. intro c. unfold utf8_len. repeat destruct (_ <? _); lia. Qed.
Lemma str_len_app : forall a b, str_len (a ++ b) = (str_len a + str_len b)%nat.
Proof. induction a as [|c a IH]; intro b; [reflexivity|]. cbn. rewrite IH. lia. Qed.
Lemma str_len_nil : forall a, str_len a = 0%nat -> a = [].
Proof. intros [|c a] H; [reflexivity|]. cbn in H. pose proof (utf8_len_pos c). lia. Qed.
Lemma boundary_app : forall a b, char_boundary (a ++ b) (str_len a) = true /\ take_to (a ++ b) (str_len a) = a /\ drop_to (a ++ b) (str_len a) = b.
Proof.
  induction a as [|c a IH]; intro b.
  - cbn. destruct b as [|d b]; [auto|]. cbn. pose proof (utf8_len_pos d). destruct (Nat.leb_spec (utf8_len d) 0); [lia|]. auto.
  - destruct (IH b) as (H1 & H2 & H3). pose proof (utf8_len_pos c) as P. cbn [app str_len]. cbn [take_to drop_to char_boundary].
    destruct (Nat.leb_spec (utf8_len c) (utf8_len c + str_len a)); [|lia].
    replace (utf8_len c + str_len a - utf8_len c)%nat with (str_len a) by lia. rewrite H2, H3.
    split; [|auto]. destruct (utf8_len c + str_len a)%nat eqn:E; [reflexivity|]. exact H1.
Qed.
Lemma boundary_split : forall s i, char_boundary s i = true -> exists a b, s = a ++ b /\ str_len a = i /\ take_to s i = a /\ drop_to s i = b.
Proof.
  intros s i H. enough (exists a b, s = a ++ b /\ str_len a = i) as (a & b & -> & <-).
  { exists a, b. destruct (boundary_app a b) as (_ & -> & ->). auto. }
  revert i H. induction s as [|c s IH]; intros i H.
  - destruct i; [exists [], []; auto|discriminate].
  - destruct i as [|i]; [exists [], (c :: s); auto|]. cbn [char_boundary] in H. apply andb_prop in H. destruct H as [H1 H2].
    apply Nat.leb_le in H1. destruct (IH _ H2) as (a & b & -> & E). exists (c :: a), b. split; [reflexivity|]. cbn. lia.
Qed.
Lemma boundary_le : forall s i, char_boundary s i = true -> (i <= str_len s)%nat.
Proof. intros s i H. destruct (boundary_split _ _ H) as (a & b & -> & <- & _). rewrite str_len_app. lia. Qed.
Lemma boundary_0 : forall s, char_boundary s 0 = true.
Proof. destruct s; reflexivity. Qed.
Lemma boundary_len : forall s, char_boundary s (str_len s) = true.
Proof. intro s. destruct (boundary_app s []) as (H & _). now rewrite app_nil_r in H. Qed.
Lemma take_len : forall s, take_to s (str_len s) = s.
Proof. intro s. destruct (boundary_app s []) as (_ & H & _). now rewrite app_nil_r in H. Qed.
Lemma take_0 : forall s, take_to s 0 = [].
Proof. destruct s as [|c s]; [reflexivity|]. cbn. pose proof (utf8_len_pos c). destruct (Nat.leb_spec (utf8_len c) 0); [lia|reflexivity]. Qed.
Lemma boundary_next : forall s i, char_boundary s i = true -> (i < str_len s)%nat -> exists k, (i < k <= i + 4)%nat /\ char_boundary s k = true.
Proof.
  intros s i H L. destruct (boundary_split _ _ H) as (a & b & -> & <- & _). rewrite str_len_app in L.
  destruct b as [|c b]; [cbn in L; lia|]. exists (str_len (a ++ [c])). rewrite str_len_app. cbn [str_len]. pose proof (utf8_len_pos c).
  split; [lia|]. replace (str_len a + (utf8_len c + 0))%nat with (str_len (a ++ [c])) by (rewrite str_len_app; reflexivity).
  replace (a ++ c :: b) with ((a ++ [c]) ++ b) by now rewrite <- app_assoc. apply boundary_app.
Qed.
(** of two boundaries the smaller cuts a prefix *)
Lemma boundary_prefix : forall s i j, char_boundary s i = true -> char_boundary s j = true -> (i <= j)%nat -> exists m, take_to s j = take_to s i ++ m.
Proof.
  intros s i j HI HJ L. destruct (boundary_split _ _ HI) as (a & b & -> & <- & -> & _). destruct (boundary_split _ _ HJ) as (a' & b' & E & <- & -> & _).
  apply app_eq_app in E. destruct E as [z [[-> _]|[-> _]]]; [|eauto]. rewrite str_len_app in L. assert (z = []) as -> by (apply str_len_nil; lia).
  exists []. now rewrite !app_nil_r.
Qed.

Lemma floor_spec : forall s m, let k := floor_boundary s m in char_boundary s k = true /\ (k <= m)%nat /\
  forall j, (k < j <= m)%nat -> char_boundary s j = false.
Proof.
  induction m as [|m IH]; cbn [floor_boundary].
  - rewrite boundary_0. split; [apply boundary_0|]. split; [lia|]. intros j H. lia.
  - destruct (char_boundary s (S m)) eqn:E; [split; [exact E|]; split; [lia|]; intros; lia|].
    destruct IH as (H1 & H2 & H3). split; [exact H1|]. split; [lia|]. intros j H. destruct (Nat.eq_dec j (S m)) as [->|]; [exact E|]. apply H3. lia.
Qed.
Lemma ceil_spec : forall s f m k, char_boundary s k = true -> (m <= k <= m + f)%nat ->
  exists n, ceil_boundary f s m = Some n /\ char_boundary s n = true /\ (m <= n <= k)%nat /\ forall j, (m <= j < n)%nat -> char_boundary s j = false.
Proof.
  induction f as [|f IH]; intros m k HK L; cbn [ceil_boundary]; destruct (char_boundary s m) eqn:E.
  - exists m. repeat split; auto; try lia.
  - assert (m = k) by lia. subst. congruence.
  - exists m. repeat split; auto; try lia.
  - assert (m <> k) by (intros ->; congruence). destruct (IH (S m) k HK ltac:(lia)) as (n & H1 & H2 & H3 & H4). exists n. repeat split; auto; try lia.
    intros j HJ. destruct (Nat.eq_dec j m) as [->|]; [exact E|]. apply H4. lia.
Qed.

(** * The error position *)
Section Position.
Variable check : list N -> bool.
Variable s : list N.
Lemma cvu_loop_spec : forall f b e, char_boundary s b = true -> char_boundary s e = true -> (b <= e)%nat -> (e - b <= f)%nat -> check (take_to s b) = true ->
  exists n, cvu_loop check s f b e = Some n /\ char_boundary s n = true /\ (b <= n <= e)%nat /\ check (take_to s n) = true /\
    ((forall i j, char_boundary s i = true -> char_boundary s j = true -> (i <= j)%nat -> check (take_to s j) = true -> check (take_to s i) = true) ->
     (b < e -> check (take_to s e) = false)%nat -> forall i, char_boundary s i = true -> (i < e)%nat \/ b = e -> (i <= e)%nat -> check (take_to s i) = true -> (i <= n)%nat).
Proof.
  induction f as [|f IH]; intros b e HB HE L F HC.
  - assert (b = e) by lia. subst e. cbn [cvu_loop]. rewrite Nat.eqb_refl. exists b. repeat split; auto; try lia.
  - cbn [cvu_loop]. destruct (Nat.eqb_spec b e) as [->|NE]; [exists e; repeat split; auto; lia|].
    remember (b + Nat.div2 (e - b))%nat as half eqn:EH.
    assert (HH : (b <= half < e)%nat) by (subst half; pose proof (Nat.div2_decr (e - b) (e - b - 1) ltac:(lia)); pose proof (Nat.lt_div2 (e - b) ltac:(lia)); lia).
    destruct (floor_spec s half) as (M1 & M2 & M3). remember (floor_boundary s half) as mid eqn:EM.
    assert (MB : (b <= mid)%nat) by (destruct (Nat.le_gt_cases b mid) as [K|K]; [exact K|]; rewrite (M3 b) in HB by lia; discriminate).
    assert (REC : forall m, char_boundary s m = true -> (b < m < e)%nat ->
      exists n, (if check (take_to s m) then cvu_loop check s f m e else cvu_loop check s f b m) = Some n /\ char_boundary s n = true /\ (b <= n <= e)%nat /\ check (take_to s n) = true /\
    ((forall i j, char_boundary s i = true -> char_boundary s j = true -> (i <= j)%nat -> check (take_to s j) = true -> check (take_to s i) = true) ->
     (b < e -> check (take_to s e) = false)%nat -> forall i, char_boundary s i = true -> (i < e)%nat \/ b = e -> (i <= e)%nat -> check (take_to s i) = true -> (i <= n)%nat)).
    { intros m HM LM. destruct (check (take_to s m)) eqn:EC.
      - destruct (IH m e HM HE ltac:(lia) ltac:(lia) EC) as (n & H1 & H2 & H3 & H4 & H5). exists n. repeat split; auto; try lia.
        intros PC HF i HI LI LE CI. apply H5; auto. intro. apply HF. lia. left. lia.
      - destruct (IH b m HB HM ltac:(lia) ltac:(lia) HC) as (n & H1 & H2 & H3 & H4 & H5). exists n. repeat split; auto; try lia.
        intros PC HF i HI LI LE CI. assert (i < m)%nat. { destruct (Nat.lt_ge_cases i m) as [K|K]; [exact K|]. rewrite (PC m i HM HI K CI) in EC. discriminate. }
        apply H5; auto. lia. }
    destruct (Nat.eqb_spec mid b) as [EB|NB]; [|apply REC; [exact M1|lia]].
    assert (NX : exists k, (half + 1 <= k <= half + 1 + 4)%nat /\ char_boundary s k = true /\ (k <= e)%nat).
    { destruct (boundary_next s b HB ltac:(apply boundary_le in HE; lia)) as (k & K1 & K2).
      destruct (Nat.le_gt_cases (half + 1) k) as [K3|K3].
      - destruct (Nat.le_gt_cases k e) as [K4|K4]; [exists k; repeat split; auto; lia|exists e; repeat split; auto; lia].
      - rewrite (M3 k) in K2 by lia. discriminate. }
    destruct NX as (k & K1 & K2 & K3). destruct (ceil_spec s 4 (half + 1) k K2 K1) as (n & -> & N1 & N2 & N3).
    destruct (Nat.eqb_spec n e) as [->|NE2]; [|apply REC; [exact N1|lia]].
    exists b. repeat split; auto; try lia. intros PC HF i HI LI LE CI. destruct (Nat.le_gt_cases i b) as [K|K]; [exact K|]. exfalso.
    destruct (Nat.eq_dec i e) as [->|]; [lia|]. destruct (Nat.le_gt_cases i half) as [J|J].
    + rewrite (M3 i) in HI by lia. discriminate.
    + rewrite (N3 i) in HI by lia. discriminate.
Qed.
Theorem cvu_spec : check [] = true -> exists n a b, compute_valid_up_to check s = Some n /\ s = a ++ b /\ str_len a = n /\ check a = true /\
  ((forall x y, s = x ++ y -> check x = true -> forall u v, x = u ++ v -> check u = true) -> check s = false ->
   forall x y, s = x ++ y -> check x = true -> exists z, a = x ++ z).
Proof.
  intro H0. unfold compute_valid_up_to.
  destruct (cvu_loop_spec (str_len s) 0 (str_len s) (boundary_0 s) (boundary_len s) ltac:(lia) ltac:(lia) ltac:(now rewrite take_0))
    as (n & H1 & H2 & H3 & H4 & H5).
  destruct (boundary_split _ _ H2) as (a & b & E & HL & HT & _). exists n, a, b. split; [exact H1|]. split; [exact E|]. split; [exact HL|].
  rewrite HT in H4. split; [exact H4|]. intros PC HS x y EX CX.
  assert (BX : char_boundary s (str_len x) = true /\ take_to s (str_len x) = x) by (rewrite EX; destruct (boundary_app x y) as (? & ? & _); auto).
  destruct BX as [BX TX].
  assert (LX : (str_len x <= n)%nat).
  { apply H5; auto.
    - intros i j HI HJ L CJ. destruct (boundary_prefix _ _ _ HI HJ L) as [m EM]. destruct (boundary_split _ _ HJ) as (p & q & EP & _ & TJ & _).
      rewrite TJ in *. exact (PC p q EP CJ _ _ EM).
    - intros _. now rewrite take_len.
    - destruct (Nat.eq_dec (str_len x) (str_len s)) as [K|K]; [|left; apply boundary_le in BX; lia]. exfalso. rewrite <- TX, K, take_len in CX. congruence.
    - now apply boundary_le.
    - now rewrite TX. }
  rewrite <- HL in LX, H2. destruct (boundary_prefix s _ _ BX H2 LX) as [m EM]. exists m. rewrite TX in EM. rewrite <- EM, HL. now symmetry.
Qed.
End Position.

(** * from_text *)
Definition accepted (s : list N) : bool :=
  forallb allowedb s && opt_all is_basic_text_start (head_opt (pipeline s)) && opt_all is_basic_text_end (last_opt (pipeline s)).
Theorem string_from_text_spec : forall check s, string_from_text check s = if accepted s then TOk (pipeline s) else TErr (compute_valid_up_to check s).
Proof.
  intros check s. unfold string_from_text, accepted. pose proof (new_refines false [] []) as R0. fold vec_sink in R0.
  destruct (write_refines false _ _ s R0) as [W1 W2].
  destruct (write_str (new_writer false false vec_sink) s) as [r w] eqn:EW. cbn [fst snd] in W1, W2.
  unfold spec_write in W1, W2. cbn [failed new_doc] in W1, W2.
  destruct (forallb allowedb s) eqn:EA; cbn [negb fst snd andb] in *.
  2:{ destruct r; [reflexivity|discriminate]. }
  unfold spec_send in W1, W2. cbn [fresh new_doc andb] in W1, W2.
  destruct (opt_all is_basic_text_start (head_opt (pipeline s))) eqn:ES; cbn [negb fst snd andb] in *.
  2:{ destruct r; [reflexivity|discriminate]. }
  destruct r; [discriminate|]. cbn [and_then]. cbn [snd outcomes new_doc text sent as_sent] in W2. rewrite ?app_nil_l in W2. destruct (op_refines false _ _ OpFlush W2 I) as [F1 F2]. cbn [do_op spec_op] in F1, F2.
  unfold spec_flush in F1, F2. cbn [failed text spec_call outcomes sent fresh] in F1, F2.
  destruct (flush w) as [r w']. cbn [fst snd] in F1, F2.
  destruct (opt_all is_basic_text_end (last_opt (pipeline s))) eqn:EE.
  - cbn in F1. destruct r; [discriminate|]. cbn in F2. destruct F2 as (_ & _ & _ & F & _). cbn in F. unfold abandon_into_inner, reset_state, set_wst. cbn [inner]. now rewrite F.
  - cbn in F1. destruct r; [reflexivity|discriminate].
Qed.
