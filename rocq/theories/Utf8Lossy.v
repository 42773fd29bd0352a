(** String::from_utf8_lossy substitutes maximal subparts. *)
From Coq Require Import NArith Arith List Bool Lia ZifyBool ZifyNat ZifyN.
From Verif Require Import Base Utf8 Utf8Facts Chars TextUtils Strings SpecUtf8.
Import ListNotations.
Local Open Scope N_scope.
Arguments N.add : simpl never.
Arguments N.leb : simpl never.
Arguments N.ltb : simpl never.
Arguments N.eqb : simpl never.
Arguments N.sub : simpl never.
Arguments N.mul : simpl never.

Lemma starts_decode : forall m, starts_char m <-> exists c u, decode1 (m ++ u) = Some (c, []).
Proof.
  intro m. split.
  - intros (c & u & H & E). exists c, u. rewrite <- E, <- (app_nil_r (encode c)). now apply decode1_encode.
  - intros (c & u & H). apply decode1_sound in H. destruct H as [H E]. exists c, u. rewrite app_nil_r in E. auto.
Qed.
Lemma bad_len_bound : forall bs, bs <> [] -> (1 <= bad_len bs <= length bs)%nat.
Proof.
  intros bs H. destruct bs as [|b0 t0]; [congruence|]. unfold bad_len. destruct (in_range b0 0xE0 0xEF).
  - destruct t0 as [|b1 t1]; cbn [length]; [lia|]. match goal with |- context[if ?b then _ else _] => destruct b end; lia.
  - destruct (in_range b0 0xF0 0xF4); [|cbn [length]; lia]. destruct t0 as [|b1 t1]; cbn [length]; [lia|].
    match goal with |- context[if in_range b1 ?x ?y then _ else _] => destruct (in_range b1 x y) end; [|lia].
    destruct t1 as [|b2 t2]; cbn [length]; [lia|]. destruct (is_cont b2); lia.
Qed.
Ltac dif := repeat match goal with
  | H : context[if ?b then _ else _] |- _ => let E := fresh "E" in destruct b eqn:E
  | |- context[if ?b then _ else _] => let E := fresh "E" in destruct b eqn:E
  end.
(** the part is the start of a character *)
Lemma bad_len_starts : forall bs, decode1 bs = None -> bs <> [] -> bad_len bs = 1%nat \/ starts_char (firstn (bad_len bs) bs).
Proof.
  intros bs HD HN. destruct bs as [|b0 t0]; [congruence|]. clear HD HN. unfold bad_len.
  destruct (in_range b0 0xE0 0xEF) eqn:E0.
  - destruct t0 as [|b1 t1]; [now left|].
    destruct (in_range b1 (fst (if b0 =? 0xE0 then (0xA0, 0xBF) else if b0 =? 0xED then (0x80, 0x9F) else if b0 =? 0xF0 then (0x90, 0xBF) else if b0 =? 0xF4 then (0x80, 0x8F) else (0x80, 0xBF)))
       (snd (if b0 =? 0xE0 then (0xA0, 0xBF) else if b0 =? 0xED then (0x80, 0x9F) else if b0 =? 0xF0 then (0x90, 0xBF) else if b0 =? 0xF4 then (0x80, 0x8F) else (0x80, 0xBF)))) eqn:E1; [|now left].
    right. apply starts_decode. cbn [firstn app]. eexists. exists [0x80]. cbn [app]. unfold decode1.
    replace (b0 <? 0x80) with false by (unfold in_range in E0; lia). replace (in_range b0 0xC2 0xDF) with false by (unfold in_range in *; lia). rewrite E0.
    replace (if b0 =? 0xE0 then in_range b1 0xA0 0xBF else if b0 =? 0xED then in_range b1 0x80 0x9F else is_cont b1) with true; [reflexivity|].
    unfold in_range in E0. destruct (b0 =? 0xE0); [now symmetry|]. destruct (b0 =? 0xED); [now symmetry|].
    replace (b0 =? 0xF0) with false in E1 by lia. replace (b0 =? 0xF4) with false in E1 by lia. now symmetry.
  - destruct (in_range b0 0xF0 0xF4) eqn:E4; [|now left]. destruct t0 as [|b1 t1]; [now left|].
    match goal with |- context[if in_range b1 ?x ?y then _ else _] => destruct (in_range b1 x y) eqn:E1 end; [|now left].
    assert (S2 : forall b2 b3, is_cont b2 = true -> is_cont b3 = true -> exists c, decode1 [b0; b1; b2; b3] = Some (c, [])).
    { intros b2 b3 H2 H3. eexists. unfold decode1.
      replace (b0 <? 0x80) with false by (unfold in_range in *; lia). replace (in_range b0 0xC2 0xDF) with false by (unfold in_range in *; lia). rewrite E0, E4, H2, H3.
      replace (if b0 =? 0xF0 then in_range b1 0x90 0xBF else if b0 =? 0xF4 then in_range b1 0x80 0x8F else is_cont b1) with true; [reflexivity|].
      unfold in_range in E4. replace (b0 =? 0xE0) with false in E1 by lia. replace (b0 =? 0xED) with false in E1 by lia.
      destruct (b0 =? 0xF0); [now symmetry|]. destruct (b0 =? 0xF4); now symmetry. }
    right. apply starts_decode. destruct t1 as [|b2 t2].
    + destruct (S2 0x80 0x80 eq_refl eq_refl) as [c EC]. exists c, [0x80; 0x80]. exact EC.
    + destruct (is_cont b2) eqn:E2.
      * destruct (S2 b2 0x80 E2 eq_refl) as [c EC]. exists c, [0x80]. exact EC.
      * destruct (S2 0x80 0x80 eq_refl eq_refl) as [c EC]. exists c, [0x80; 0x80]. exact EC.
Qed.
(** no longer part is *)
Lemma bad_len_longest : forall bs m t, decode1 bs = None -> bs = m ++ t -> starts_char m -> (length m <= bad_len bs)%nat.
Proof.
  intros bs m t HD E HS. apply starts_decode in HS. destruct HS as (c & u & H).
  destruct m as [|b0 m]; [cbn; lia|]. cbn [app] in E, H. subst bs. unfold decode1 in HD, H. unfold bad_len. cbn [length].
  destruct (b0 <? 0x80) eqn:L; [discriminate|].
  destruct (in_range b0 0xC2 0xDF) eqn:R2.
  { replace (in_range b0 0xE0 0xEF) with false by (unfold in_range in *; lia). replace (in_range b0 0xF0 0xF4) with false by (unfold in_range in *; lia).
    destruct m as [|b1 m]; cbn [app length] in *; [lia|]. destruct (is_cont b1); discriminate. }
  destruct (in_range b0 0xE0 0xEF) eqn:R3.
  { destruct m as [|b1 m]; cbn [app length] in *; [destruct t as [|b1 t]; [lia|]; match goal with |- context[if ?b then _ else _] => destruct b end; lia|].
    destruct m as [|b2 m]; cbn [app length] in *.
    - destruct u as [|b2 u]; [discriminate|]. match type of H with (if ?b && _ then _ else _) = _ => destruct b eqn:E1 end; [|discriminate].
      match goal with |- context[if in_range b1 ?x ?y then _ else _] => replace (in_range b1 x y) with true; [lia|] end.
      unfold in_range in R3. destruct (b0 =? 0xE0); [now symmetry|]. destruct (b0 =? 0xED); [now symmetry|].
      replace (b0 =? 0xF0) with false by lia. replace (b0 =? 0xF4) with false by lia. now symmetry.
    - match type of H with (if ?b then _ else _) = _ => destruct b eqn:E1 end; discriminate. }
  destruct (in_range b0 0xF0 0xF4) eqn:R4; [|discriminate].
  destruct m as [|b1 m]; cbn [app length] in *.
  { destruct t as [|b1 t]; [lia|]. match goal with |- context[if ?b then _ else _] => destruct b end; [|lia]. destruct t as [|b2 t]; [lia|]. destruct (is_cont b2); lia. }
  assert (S2 : forall b2 b3 (r : option (N * list N)), (if (if b0 =? 0xF0 then in_range b1 0x90 0xBF else if b0 =? 0xF4 then in_range b1 0x80 0x8F else is_cont b1) && is_cont b2 && is_cont b3 then r else None) = Some (c, []) ->
     in_range b1 (fst (if b0 =? 224 then (160, 191) else if b0 =? 237 then (128, 159) else if b0 =? 240 then (144, 191) else if b0 =? 244 then (128, 143) else (128, 191)))
      (snd (if b0 =? 224 then (160, 191) else if b0 =? 237 then (128, 159) else if b0 =? 240 then (144, 191) else if b0 =? 244 then (128, 143) else (128, 191))) = true /\ is_cont b2 = true /\ is_cont b3 = true).
  { intros b2 b3 r K. destruct ((if b0 =? 0xF0 then in_range b1 0x90 0xBF else if b0 =? 0xF4 then in_range b1 0x80 0x8F else is_cont b1)) eqn:E1; [|discriminate].
    destruct (is_cont b2); [|discriminate]. destruct (is_cont b3); [|discriminate]. split; [|auto]. unfold in_range in R4.
    replace (b0 =? 0xE0) with false by lia. replace (b0 =? 0xED) with false by lia. destruct (b0 =? 0xF0); [exact E1|]. destruct (b0 =? 0xF4); exact E1. }
  destruct m as [|b2 m]; cbn [app length] in *.
  { destruct u as [|b2 [|b3 u]]; try discriminate. destruct (S2 b2 b3 _ H) as (-> & _). destruct t as [|x t]; [lia|]. destruct (is_cont x); lia. }
  destruct m as [|b3 m]; cbn [app length] in *.
  { destruct u as [|b3 u]; try discriminate. destruct (S2 b2 b3 _ H) as (-> & -> & _). lia. }
  exfalso. destruct (S2 b2 b3 _ H) as (_ & H2 & H3). match type of H with (if ?b then _ else _) = _ => destruct b end; discriminate.
Qed.
Lemma bad_maximal : forall bs, decode1 bs = None -> bs <> [] -> maximal_subpart (firstn (bad_len bs) bs) (skipn (bad_len bs) bs).
Proof.
  intros bs HD HN. pose proof (bad_len_bound bs HN) as B. assert (L : length (firstn (bad_len bs) bs) = bad_len bs) by (rewrite firstn_length; lia).
  split; [intro E; rewrite E in L; cbn in L; lia|]. rewrite firstn_skipn. split.
  - intros c u H E. rewrite E, decode1_encode in HD by exact H. discriminate.
  - split.
    + rewrite L. now apply bad_len_starts.
    + intros m' t' E H. rewrite L. now apply (bad_len_longest bs m' t').
Qed.
Theorem utf8_lossy_spec : forall bs, lossy_decoding bs (utf8_lossy bs).
Proof.
  intro bs. unfold utf8_lossy. assert (G : forall f bs, (length bs <= f)%nat -> lossy_decoding bs (utf8_lossy_go f bs)).
  { clear. induction f as [|f IH]; intros bs L; [destruct bs; [constructor|cbn in L; lia]|]. cbn [utf8_lossy_go]. destruct bs as [|b bs]; [constructor|].
    destruct (decode1 (b :: bs)) as [[c t]|] eqn:E.
    - pose proof (decode1_shrinks _ _ _ E). destruct (decode1_sound _ _ _ E) as [HC ->]. constructor; [exact HC|]. apply IH. lia.
    - assert (HN : b :: bs <> []) by discriminate. pose proof (bad_maximal _ E HN) as M. pose proof (bad_len_bound _ HN) as B.
      rewrite <- (firstn_skipn (bad_len (b :: bs)) (b :: bs)) at 1. constructor; [exact M|]. apply IH. rewrite skipn_length. lia. }
  now apply G.
Qed.
Lemma maximal_unique : forall m t m' t', maximal_subpart m t -> maximal_subpart m' t' -> m ++ t = m' ++ t' -> m = m' /\ t = t'.
Proof.
  intros m t m' t' (N1 & _ & S1 & M1) (N2 & _ & S2 & M2) E. assert (L : length m = length m').
  { destruct m as [|x m]; [congruence|]. destruct m' as [|y m']; [congruence|]. destruct S1 as [S1|S1]; destruct S2 as [S2|S2].
    - congruence.
    - specialize (M1 _ _ E S2). cbn in *. lia.
    - symmetry in E. specialize (M2 _ _ E S1). cbn in *. lia.
    - specialize (M1 _ _ E S2). symmetry in E. specialize (M2 _ _ E S1). lia. }
  clear - E L. revert m' L E. induction m as [|x m IH]; intros [|y m'] L E; cbn in *; try discriminate; [auto|]. injection E as -> E. injection L as L. destruct (IH _ L E) as [-> ->]. auto.
Qed.
Theorem lossy_decoding_unique : forall bs r r', lossy_decoding bs r -> lossy_decoding bs r' -> r = r'.
Proof.
  intros bs r r' H. revert r'. induction H as [|c t r Hc H IH|m t r M H IH]; intros r' H'.
  - inversion H' as [E0 E1|c t r1 Hc H1 E0 E1|m t r1 M H1 E0 E1]; [reflexivity| |].
    + apply app_eq_nil in E0. destruct E0 as [E0 _]. pose proof (encode_length c) as L. rewrite E0 in L. pose proof (utf8_len_pos c). cbn in L. lia.
    + destruct M as (M & _). apply app_eq_nil in E0. tauto.
  - inversion H' as [E0 E1|c' t' r1 Hc' H1 E0 E1|m t' r1 M H1 E0 E1].
    + symmetry in E0. apply app_eq_nil in E0. destruct E0 as [E0 _]. pose proof (encode_length c) as L. rewrite E0 in L. pose proof (utf8_len_pos c). cbn in L. lia.
    + pose proof (decode1_encode c t Hc) as D. rewrite <- E0, (decode1_encode c' t' Hc') in D. injection D as -> ->. f_equal. now apply IH.
    + destruct M as (_ & M & _). exfalso. exact (M _ _ Hc E0).
  - inversion H' as [E0 E1|c' t' r1 Hc' H1 E0 E1|m' t' r1 M' H1 E0 E1].
    + destruct M as (M & _). symmetry in E0. apply app_eq_nil in E0. tauto.
    + destruct M as (_ & M & _). exfalso. symmetry in E0. exact (M _ _ Hc' E0).
    + symmetry in E0. destruct (maximal_unique _ _ _ _ M M' E0) as [-> ->]. f_equal. now apply IH.
Qed.
Theorem utf8_lossy_exact : forall bs r, utf8_lossy bs = r <-> lossy_decoding bs r.
Proof. intros bs r. split; [intros <-; apply utf8_lossy_spec|]. intro H. exact (lossy_decoding_unique _ _ _ (utf8_lossy_spec bs) H). Qed.
