(** UTF-8 encoding and decoding are inverse to each other. *)
From Coq Require Import NArith Arith List Bool Lia ZifyBool ZifyNat ZifyN.
From Verif Require Import Base Utf8.
Import ListNotations.
Local Open Scope N_scope.
Arguments N.add : simpl never.
Arguments N.sub : simpl never.
Arguments N.mul : simpl never.
Arguments N.leb : simpl never.
Arguments N.ltb : simpl never.
Arguments N.eqb : simpl never.
Arguments N.div : simpl never.
Arguments N.modulo : simpl never.

(** the digits of [c] in base 64 *)
Lemma digits : forall c, exists a r0 b r1 d r2, c = 64 * a + r0 /\ a = 64 * b + r1 /\ b = 64 * d + r2
  /\ r0 < 64 /\ r1 < 64 /\ r2 < 64
  /\ c / 64 = a /\ c mod 64 = r0 /\ c / 4096 = b /\ (c / 64) mod 64 = r1 /\ c / 262144 = d /\ (c / 4096) mod 64 = r2.
Proof.
  intro c. exists (c / 64), (c mod 64), (c / 64 / 64), ((c / 64) mod 64), (c / 64 / 64 / 64), ((c / 64 / 64) mod 64).
  assert (E1 : c / 4096 = c / 64 / 64) by (rewrite N.div_div; [reflexivity|lia|lia]).
  assert (E2 : c / 262144 = c / 64 / 64 / 64) by (rewrite !N.div_div; [reflexivity|lia|lia|lia|lia]).
  rewrite E2. change (262144) with 262144. rewrite E1.
  repeat split; try (apply N.mod_lt; lia); try (apply N.div_mod; lia).
Qed.

Lemma encode_length : forall c, length (encode c) = utf8_len c.
Proof. intro c. unfold encode, utf8_len. repeat destruct (_ <? _); reflexivity. Qed.
Lemma encode_all_length : forall s, length (encode_all s) = str_len s.
Proof. induction s as [|c s IH]; [reflexivity|]. unfold encode_all in *. cbn [flat_map str_len]. now rewrite app_length, encode_length, IH. Qed.
Lemma encode_all_app : forall a b, encode_all (a ++ b) = encode_all a ++ encode_all b.
Proof. intros. apply flat_map_app. Qed.
Lemma str_len_app : forall a b, str_len (a ++ b) = (str_len a + str_len b)%nat.
Proof. intros. now rewrite <- !encode_all_length, encode_all_app, app_length. Qed.
Lemma utf8_len_pos : forall c, (1 <= utf8_len c <= 4)%nat.
Proof. intro c. unfold utf8_len. repeat destruct (_ <? _); lia. Qed.

Ltac split_digits c :=
  let a := fresh "a" in let r0 := fresh "r" in let b := fresh "b" in let r1 := fresh "r" in let d := fresh "d" in let r2 := fresh "r" in
  destruct (digits c) as (a & r0 & b & r1 & d & r2 & ? & ? & ? & ? & ? & ? & ? & ? & ? & ? & ? & ?).

Lemma decode1_encode : forall c t, is_scalar c = true -> decode1 (encode c ++ t) = Some (c, t).
Proof.
  intros c t H. unfold encode, is_scalar, in_range in *. unfold decode1.
  destruct (digits c) as (a & r0 & b & r1 & d & r2 & Hc & Ha & Hb & L0 & L1 & L2 & E1 & E2 & E3 & E4 & E5 & E6).
  rewrite E1, E2, E3, E5 in *. rewrite E4, E6 in *. clear E1 E2 E3 E4 E5 E6.
  destruct (c <? 0x80) eqn:C1; [cbn [app]; rewrite C1; reflexivity|].
  destruct (c <? 0x800) eqn:C2.
  { cbn [app]. unfold in_range, is_cont, in_range.
    assert (0xC0 + a <? 0x80 = false) as -> by lia.
    assert ((0xC2 <=? 0xC0 + a) && (0xC0 + a <=? 0xDF) = true) as -> by lia.
    assert ((0x80 <=? 0x80 + r0) && (0x80 + r0 <=? 0xBF) = true) as -> by lia.
    do 2 f_equal. lia. }
  destruct (c <? 0x10000) eqn:C3.
  { cbn [app]. unfold in_range, is_cont, in_range.
    assert (0xE0 + b <? 0x80 = false) as -> by lia.
    assert ((0xC2 <=? 0xE0 + b) && (0xE0 + b <=? 0xDF) = false) as -> by lia.
    assert ((0xE0 <=? 0xE0 + b) && (0xE0 + b <=? 0xEF) = true) as -> by lia.
    assert ((0x80 <=? 0x80 + r0) && (0x80 + r0 <=? 0xBF) = true) as -> by lia.
    rewrite andb_true_r.
    assert ((if 0xE0 + b =? 0xE0 then (0xA0 <=? 0x80 + r1) && (0x80 + r1 <=? 0xBF)
       else if 0xE0 + b =? 0xED then (0x80 <=? 0x80 + r1) && (0x80 + r1 <=? 0x9F)
       else (0x80 <=? 0x80 + r1) && (0x80 + r1 <=? 0xBF)) = true) as ->.
    { destruct (0xE0 + b =? 0xE0) eqn:?; [lia|]. destruct (0xE0 + b =? 0xED) eqn:?; lia. }
    do 2 f_equal. lia. }
  cbn [app]. unfold in_range, is_cont, in_range.
  assert (0xF0 + d <? 0x80 = false) as -> by lia.
  assert ((0xC2 <=? 0xF0 + d) && (0xF0 + d <=? 0xDF) = false) as -> by lia.
  assert ((0xE0 <=? 0xF0 + d) && (0xF0 + d <=? 0xEF) = false) as -> by lia.
  assert ((0xF0 <=? 0xF0 + d) && (0xF0 + d <=? 0xF4) = true) as -> by lia.
  assert ((0x80 <=? 0x80 + r0) && (0x80 + r0 <=? 0xBF) = true) as -> by lia.
  assert ((0x80 <=? 0x80 + r1) && (0x80 + r1 <=? 0xBF) = true) as -> by lia.
  rewrite !andb_true_r.
  assert ((if 0xF0 + d =? 0xF0 then (0x90 <=? 0x80 + r2) && (0x80 + r2 <=? 0xBF)
       else if 0xF0 + d =? 0xF4 then (0x80 <=? 0x80 + r2) && (0x80 + r2 <=? 0x8F)
       else (0x80 <=? 0x80 + r2) && (0x80 + r2 <=? 0xBF)) = true) as ->.
  { destruct (0xF0 + d =? 0xF0) eqn:?; [lia|]. destruct (0xF0 + d =? 0xF4) eqn:?; lia. }
  do 2 f_equal. lia.
Qed.

(** uniqueness of the digits *)
Lemma digits_unique : forall c a r0 b r1 d r2, c = 64 * a + r0 -> a = 64 * b + r1 -> b = 64 * d + r2 ->
  r0 < 64 -> r1 < 64 -> r2 < 64 ->
  c / 64 = a /\ c mod 64 = r0 /\ c / 4096 = b /\ (c / 64) mod 64 = r1 /\ c / 262144 = d /\ (c / 4096) mod 64 = r2.
Proof.
  intros. destruct (digits c) as (a' & r0' & b' & r1' & d' & r2' & Hc & Ha & Hb & L0 & L1 & L2 & E1 & E2 & E3 & E4 & E5 & E6).
  rewrite E4, E6, E1, E2, E3, E5. lia.
Qed.

Lemma decode1_sound : forall bs c t, decode1 bs = Some (c, t) -> is_scalar c = true /\ bs = encode c ++ t.
Proof.
  intros [|b0 t0] c t H; [discriminate|]. unfold decode1 in H. unfold encode, is_scalar.
  destruct (b0 <? 0x80) eqn:C1.
  { injection H as <- <-. rewrite C1. unfold in_range. split; [lia|reflexivity]. }
  destruct (in_range b0 0xC2 0xDF) eqn:C2.
  { destruct t0 as [|b1 t1]; [discriminate|]. destruct (is_cont b1) eqn:K1; [|discriminate]. injection H as <- <-.
    unfold is_cont, in_range in *. set (c := (b0 - 0xC0) * 64 + (b1 - 0x80)).
    destruct (digits_unique c (b0 - 0xC0) (b1 - 0x80) 0 (b0 - 0xC0) 0 0) as (E1 & E2 & _); try lia.
    rewrite E1, E2. clear E1 E2. assert (c <? 0x80 = false) as -> by lia. assert (c <? 0x800 = true) as -> by lia.
    split; [lia|]. cbn [app]. repeat f_equal; lia. }
  destruct (in_range b0 0xE0 0xEF) eqn:C3.
  { destruct t0 as [|b1 [|b2 t2]]; try discriminate.
    destruct (_ && is_cont b2) eqn:K; [|discriminate]. injection H as <- <-. apply andb_prop in K. destruct K as [K1 K2].
    assert (B1 : 0x80 <= b1 <= 0xBF /\ (b0 = 0xE0 -> 0xA0 <= b1) /\ (b0 = 0xED -> b1 <= 0x9F)).
    { unfold is_cont, in_range in *. destruct (b0 =? 0xE0) eqn:?; [lia|]. destruct (b0 =? 0xED) eqn:?; lia. }
    clear K1. unfold is_cont, in_range in *. set (c := (b0 - 0xE0) * 4096 + (b1 - 0x80) * 64 + (b2 - 0x80)).
    destruct (digits_unique c ((b0 - 0xE0) * 64 + (b1 - 0x80)) (b2 - 0x80) (b0 - 0xE0) (b1 - 0x80) 0 (b0 - 0xE0)) as (E1 & E2 & E3 & E4 & _); try lia.
    rewrite E3, E4, E2. clear E1 E2 E3 E4. assert (c <? 0x80 = false) as -> by lia. assert (c <? 0x800 = false) as -> by lia.
    assert (c <? 0x10000 = true) as -> by lia.
    split; [lia|]. cbn [app]. repeat f_equal; lia. }
  destruct (in_range b0 0xF0 0xF4) eqn:C4; [|discriminate].
  destruct t0 as [|b1 [|b2 [|b3 t3]]]; try discriminate.
  destruct (_ && is_cont b3) eqn:K; [|discriminate]. injection H as <- <-. apply andb_prop in K. destruct K as [K K3].
  apply andb_prop in K. destruct K as [K1 K2].
  assert (B1 : 0x80 <= b1 <= 0xBF /\ (b0 = 0xF0 -> 0x90 <= b1) /\ (b0 = 0xF4 -> b1 <= 0x8F)).
  { unfold is_cont, in_range in *. destruct (b0 =? 0xF0) eqn:?; [lia|]. destruct (b0 =? 0xF4) eqn:?; lia. }
  clear K1. unfold is_cont, in_range in *. set (c := (b0 - 0xF0) * 262144 + (b1 - 0x80) * 4096 + (b2 - 0x80) * 64 + (b3 - 0x80)).
  destruct (digits_unique c (((b0 - 0xF0) * 64 + (b1 - 0x80)) * 64 + (b2 - 0x80)) (b3 - 0x80) ((b0 - 0xF0) * 64 + (b1 - 0x80)) (b2 - 0x80)
    (b0 - 0xF0) (b1 - 0x80)) as (E1 & E2 & E3 & E4 & E5 & E6); try lia.
  rewrite E5, E6, E4, E2. clear E1 E2 E3 E4 E5 E6. assert (c <? 0x80 = false) as -> by lia. assert (c <? 0x800 = false) as -> by lia.
  assert (c <? 0x10000 = false) as -> by lia.
  split; [lia|]. cbn [app]. repeat f_equal; lia.
Qed.

Lemma decode1_shrinks : forall bs c t, decode1 bs = Some (c, t) -> (length t < length bs)%nat.
Proof.
  intros bs c t H. apply decode1_sound in H. destruct H as [_ ->]. rewrite app_length, encode_length.
  pose proof (utf8_len_pos c). lia.
Qed.

Lemma decode_go_spec : forall f bs s rest, (length bs <= f)%nat -> decode_go f bs = (s, rest) ->
  scalars s /\ bs = encode_all s ++ rest /\ decode1 rest = None.
Proof.
  induction f as [|f IH]; intros bs s rest Hf H; cbn [decode_go] in H.
  - injection H as <- <-. destruct bs; [|cbn in Hf; lia]. repeat split. constructor.
  - destruct (decode1 bs) as [[c t]|] eqn:E.
    + destruct (decode_go f t) as [cs rest'] eqn:E2. injection H as <- <-.
      pose proof (decode1_shrinks _ _ _ E). apply decode1_sound in E. destruct E as [E1 ->].
      assert (L : (length t <= f)%nat) by lia. destruct (IH _ _ _ L E2) as (A & -> & C). repeat split.
      * constructor; auto.
      * unfold encode_all. cbn [flat_map]. now rewrite <- app_assoc.
      * exact C.
    + injection H as <- <-. repeat split; [constructor|exact E].
Qed.

Theorem decode_spec : forall bs s rest, decode bs = (s, rest) ->
  scalars s /\ bs = encode_all s ++ rest /\ decode1 rest = None.
Proof. intros bs s rest. apply decode_go_spec. lia. Qed.

Lemma decode_go_encode : forall s f rest, scalars s -> (length s <= f)%nat ->
  decode_go f (encode_all s ++ rest) = let '(cs, r) := decode_go (f - length s) rest in (s ++ cs, r).
Proof.
  induction s as [|c s IH]; intros f rest H Hf.
  - cbn [encode_all flat_map app length]. rewrite Nat.sub_0_r. now destruct (decode_go f rest).
  - inversion H; subst. destruct f as [|f]; [cbn in Hf; lia|]. unfold encode_all. cbn [flat_map]. rewrite <- app_assoc.
    cbn [decode_go]. rewrite decode1_encode by assumption. fold (encode_all s). rewrite IH by (auto; cbn in Hf; lia).
    cbn [length Nat.sub]. destruct (decode_go (f - length s) rest). reflexivity.
Qed.

Lemma length_le_str_len : forall s, (length s <= str_len s)%nat.
Proof. induction s as [|c s IH]; cbn; [lia|]. pose proof (utf8_len_pos c). lia. Qed.

Lemma decode_go_stuck : forall f bs, decode1 bs = None -> decode_go f bs = ([], bs).
Proof. intros [|f] bs H; [reflexivity|]. cbn. now rewrite H. Qed.

(** the decoder finds the longest valid prefix *)
Theorem decode_encode : forall s rest, scalars s -> decode1 rest = None -> decode (encode_all s ++ rest) = (s, rest).
Proof.
  intros s rest H HR. unfold decode. rewrite decode_go_encode; [|exact H|].
  - now rewrite decode_go_stuck, app_nil_r.
  - rewrite app_length, encode_all_length. pose proof (length_le_str_len s). lia.
Qed.
Corollary decode_encode_all : forall s, scalars s -> decode (encode_all s) = (s, []).
Proof. intros s H. pose proof (decode_encode s [] H eq_refl) as E. now rewrite app_nil_r in E. Qed.

Theorem valid_utf8_spec : forall bs, valid_utf8 bs = true <-> exists s, scalars s /\ bs = encode_all s.
Proof.
  intro bs. unfold valid_utf8. split.
  - destruct (decode bs) as [s rest] eqn:E. cbn. destruct rest; [|discriminate]. intros _.
    apply decode_spec in E. destruct E as (A & B & _). rewrite app_nil_r in B. eauto.
  - intros (s & H & ->). now rewrite decode_encode_all.
Qed.
Corollary valid_app : forall a b, valid_utf8 a = true -> valid_utf8 b = true -> valid_utf8 (a ++ b) = true.
Proof.
  intros a b HA HB. apply valid_utf8_spec in HA, HB. destruct HA as (s & H1 & ->). destruct HB as (t & H2 & ->).
  apply valid_utf8_spec. exists (s ++ t). split; [now apply Forall_app|now rewrite encode_all_app].
Qed.

Theorem encode_all_inj : forall a b, scalars a -> scalars b -> encode_all a = encode_all b -> a = b.
Proof. intros a b HA HB E. apply decode_encode_all in HA, HB. rewrite E in HA. congruence. Qed.

(** * The caller's buffer *)
Lemma encode_shape : forall c, is_scalar c = true -> exists b t, encode c = b :: t /\ is_char_boundary b = true /\ Forall (fun x => is_char_boundary x = false) t.
Proof.
  intros c H. unfold encode, is_scalar, in_range in *.
  destruct (digits c) as (a & r0 & b & r1 & d & r2 & Hc & Ha & Hb & L0 & L1 & L2 & E1 & E2 & E3 & E4 & E5 & E6).
  rewrite E1, E2, E3, E5 in *. rewrite E4, E6 in *. clear E1 E2 E3 E4 E5 E6. unfold is_char_boundary.
  destruct (c <? 0x80) eqn:C1; [|destruct (c <? 0x800) eqn:C2; [|destruct (c <? 0x10000) eqn:C3]];
    do 2 eexists; (split; [reflexivity|]); split; try lia; repeat constructor; lia.
Qed.

Lemma clear_conts : forall t r, Forall (fun x => is_char_boundary x = false) t -> clear_to_char_boundary (t ++ r) = repeat 0 (length t) ++ clear_to_char_boundary r.
Proof. induction 1 as [|x t H HF IH]; [reflexivity|]. cbn. rewrite H. now rewrite IH. Qed.
Lemma clear_encoded : forall s, scalars s -> clear_to_char_boundary (encode_all s) = encode_all s.
Proof.
  intros [|c s] H; [reflexivity|]. inversion H; subst. destruct (encode_shape c) as (b & t & E & B & _); [assumption|].
  unfold encode_all. cbn [flat_map]. rewrite E. cbn. now rewrite B.
Qed.
Lemma Forall_skipn : forall A (P : A -> Prop) n l, Forall P l -> Forall P (skipn n l).
Proof. intros A P n l H. rewrite <- (firstn_skipn n l) in H. now apply Forall_app in H. Qed.

Lemma skipn_encoded : forall s n, scalars s -> exists t s', skipn n (encode_all s) = t ++ encode_all s' /\ Forall (fun x => is_char_boundary x = false) t /\ scalars s'.
Proof.
  induction s as [|c s IH]; intros n H.
  - exists [], []. destruct n; repeat constructor.
  - inversion H as [|? ? H1 H2]; subst. destruct n as [|n].
    + exists [], (c :: s). repeat split; [constructor|exact H].
    + destruct (encode_shape c H1) as (b & t & E & B & T). unfold encode_all. cbn [flat_map]. rewrite E. cbn [app skipn].
      rewrite skipn_app. fold (encode_all s). destruct (Nat.leb n (length t)) eqn:L.
      * apply Nat.leb_le in L. replace (n - length t)%nat with 0%nat by lia. cbn [skipn].
        exists (skipn n t), s. repeat split; [now apply Forall_skipn|exact H2].
      * apply Nat.leb_gt in L. rewrite skipn_all2 by lia. cbn [app]. apply IH. exact H2.
Qed.

Lemma valid_zeros : forall n, valid_utf8 (repeat 0 n) = true.
Proof.
  intro n. apply valid_utf8_spec. exists (repeat 0 n). split.
  - apply Forall_forall. intros x HX. apply repeat_spec in HX. subst. reflexivity.
  - induction n; [reflexivity|]. cbn [repeat]. unfold encode_all in *. cbn [flat_map]. rewrite <- IHn. reflexivity.
Qed.

(** after clearing, the rest of a valid buffer is valid from any position *)
Theorem clear_valid : forall n buf, valid_utf8 buf = true -> valid_utf8 (clear_to_char_boundary (skipn n buf)) = true.
Proof.
  intros n buf H. apply valid_utf8_spec in H. destruct H as (s & H & ->).
  destruct (skipn_encoded s n H) as (t & s' & -> & HT & HS). rewrite clear_conts by exact HT. rewrite clear_encoded by exact HS.
  apply valid_app; [apply valid_zeros|]. apply valid_utf8_spec. eauto.
Qed.
Lemma clear_length : forall bs, length (clear_to_char_boundary bs) = length bs.
Proof. induction bs as [|b t IH]; [reflexivity|]. cbn. destruct (is_char_boundary b); cbn; congruence. Qed.
