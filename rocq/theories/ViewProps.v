(** The views of a text. *)
From Coq Require Import NArith Arith List Bool Lia ZifyBool ZifyNat ZifyN.
From Verif Require Import Base Chars SpecText Utf8 Utf8Facts Strings StringFacts StringProps JoinProps Search SpecSearch SearchProps SpecAscii AsciiProps Views SpecViews.
Import ListNotations.
Local Open Scope N_scope.
Arguments N.add : simpl never.
Arguments N.sub : simpl never.
Arguments N.mul : simpl never.
Arguments N.leb : simpl never.
Arguments N.ltb : simpl never.
Arguments N.eqb : simpl never.
Arguments N.div : simpl never.
Arguments N.modulo : simpl never.

(** * Positions *)
Theorem char_indices_chars : forall s, map snd (char_indices s) = s.
Proof. intro s. unfold char_indices. generalize 0%nat. induction s as [|c s IH]; intro n; [reflexivity|]. cbn. now rewrite IH. Qed.
Lemma char_indices_from_spec : forall s n i c, In (i, c) (char_indices_from n s) <-> exists a b, s = a ++ c :: b /\ i = (n + str_len a)%nat.
Proof.
  induction s as [|x s IH]; intros n i c; cbn [char_indices_from In].
  - split; [contradiction|]. intros (a & b & E & _). destruct a; discriminate.
  - rewrite IH. split.
    + intros [E|(a & b & -> & ->)]; [injection E as <- <-; exists [], s; split; [reflexivity|]; cbn; lia|]. exists (x :: a), b. split; [reflexivity|]. cbn [str_len]. lia.
    + intros ([|y a] & b & E & ->); cbn [app] in E; injection E as -> ->; [left; cbn; f_equal; lia|]. right. exists a, b. split; [reflexivity|]. cbn [str_len]. lia.
Qed.
Theorem char_indices_spec : forall s i c, In (i, c) (char_indices s) <-> exists a b, s = a ++ c :: b /\ str_len a = i.
Proof.
  intros s i c. unfold char_indices. rewrite char_indices_from_spec. split; intros (a & b & E & L); exists a, b; (split; [exact E|]); cbn in *; lia.
Qed.

(** * UTF-16 *)
Lemma utf16_step : forall c t, is_scalar c = true -> utf16_text (utf16 c ++ t) = consed c (utf16_text t).
Proof.
  intros c t H. unfold is_scalar, in_range in H. unfold utf16. destruct (N.ltb_spec c 0x10000) as [L|L].
  - cbn [app utf16_text]. replace (in_range c 0xD800 0xDBFF) with false by (unfold in_range; lia). now replace (in_range c 0xDC00 0xDFFF) with false by (unfold in_range; lia).
  - cbn [app utf16_text]. pose proof (N.div_mod (c - 0x10000) 1024 ltac:(lia)) as D. pose proof (N.mod_lt (c - 0x10000) 1024 ltac:(lia)) as M.
    set (q := (c - 0x10000) / 1024) in *. set (r := (c - 0x10000) mod 1024) in *.
    replace (in_range (0xD800 + q) 0xD800 0xDBFF) with true by (unfold in_range; lia). replace (in_range (0xDC00 + r) 0xDC00 0xDFFF) with true by (unfold in_range; lia).
    f_equal. lia.
Qed.
Theorem utf16_round_trip : forall s, scalars s -> utf16_text (encode_utf16 s) = Some s.
Proof. intros s H. induction H as [|c s HC H IH]; [reflexivity|]. cbn [encode_utf16 flat_map]. rewrite utf16_step by exact HC. unfold encode_utf16 in IH. now rewrite IH. Qed.
Theorem utf16_units : forall s, scalars s -> Forall (fun u => u < 0x10000) (encode_utf16 s).
Proof.
  intros s H. induction H as [|c s HC H IH]; [constructor|]. cbn [encode_utf16 flat_map]. apply Forall_app. split; [|exact IH]. unfold utf16. unfold is_scalar, in_range in HC.
  destruct (N.ltb_spec c 0x10000) as [L|L]; [now constructor|]. pose proof (N.div_mod (c - 0x10000) 1024 ltac:(lia)) as D. pose proof (N.mod_lt (c - 0x10000) 1024 ltac:(lia)) as M.
  set (q := (c - 0x10000) / 1024) in *. set (r := (c - 0x10000) mod 1024) in *. repeat constructor; lia.
Qed.

(** * ASCII *)
Lemma encode_low : forall c, c < 0x80 -> encode c = [c].
Proof. intros c H. unfold encode. now rewrite (proj2 (N.ltb_lt c 0x80) H). Qed.
Lemma encode_high : forall c, 0x80 <= c -> exists b t, encode c = b :: t /\ Forall (fun x => 0x80 <= x) (b :: t).
Proof.
  intros c H. unfold encode. rewrite (proj2 (N.ltb_ge c 0x80) H).
  destruct (c <? 0x800); [do 2 eexists; split; [reflexivity|]; repeat constructor; lia|]. destruct (c <? 0x10000); do 2 eexists; (split; [reflexivity|]); repeat constructor; lia.
Qed.
Theorem is_ascii_spec : forall s, is_ascii s = true <-> Forall (fun c => c < 0x80) s.
Proof.
  intro s. unfold is_ascii. induction s as [|c s IH]; [split; [constructor|reflexivity]|]. cbn [encode_all flat_map]. rewrite forallb_app, andb_true_iff, Forall_cons_iff.
  unfold encode_all in IH. rewrite IH. destruct (N.ltb_spec c 0x80) as [L|L].
  - rewrite encode_low by exact L. cbn. rewrite (proj2 (N.ltb_lt c 0x80) L). tauto.
  - destruct (encode_high c L) as (b & t & -> & F). inversion F as [|? ? FB _]; subst. cbn. rewrite (proj2 (N.ltb_ge b 0x80) FB). cbn. split; [intros [K _]; discriminate|]. intros [K _]. lia.
Qed.
Theorem is_ascii_valid : forall s, substring_ok s -> is_ascii s = true <-> Forall plain_ascii s.
Proof.
  intros s OK. rewrite is_ascii_spec. split.
  - intro F. apply ascii_substring_ok; [|exact OK]. eapply Forall_impl; [|exact F]. intros c HC. cbn in HC. unfold ascii. lia.
  - intro F. eapply Forall_impl; [|exact F]. intros c HC. unfold plain_ascii in HC. lia.
Qed.

(** * Case *)
Lemma eq_ignore_map : forall a b, eq_ignore_bytes a b = true <-> map lower_byte a = map lower_byte b.
Proof.
  induction a as [|x a IH]; intros [|y b]; cbn; try (split; congruence). rewrite andb_true_iff, N.eqb_eq, IH. split; [intros [-> ->]; reflexivity|]. intro E. injection E as -> ->. auto.
Qed.
Lemma lower_high : forall b, 0x80 <= b -> lower_byte b = b.
Proof. intros b H. unfold lower_byte. now replace ((0x41 <=? b) && (b <=? 0x5A)) with false by lia. Qed.
Lemma lower_encode : forall s, map lower_byte (encode_all s) = encode_all (map lower_byte s).
Proof.
  induction s as [|c s IH]; [reflexivity|]. cbn [encode_all flat_map map]. rewrite map_app. unfold encode_all in IH. rewrite IH. f_equal.
  destruct (N.ltb_spec c 0x80) as [L|L].
  - rewrite encode_low by exact L. rewrite encode_low; [reflexivity|]. unfold lower_byte. destruct ((0x41 <=? c) && (c <=? 0x5A)) eqn:E; lia.
  - rewrite (lower_high c L). destruct (encode_high c L) as (b & t & -> & F). clear - F. induction F as [|x l HX F IH]; [reflexivity|]. cbn. now rewrite lower_high, IH.
Qed.
Lemma lower_scalar : forall c, is_scalar c = true -> is_scalar (lower_byte c) = true.
Proof. intros c H. unfold lower_byte. destruct ((0x41 <=? c) && (c <=? 0x5A)) eqn:E; [|exact H]. unfold is_scalar, in_range. lia. Qed.
Lemma lower_scalars : forall s, scalars s -> scalars (map lower_byte s).
Proof. intros s H. induction H as [|c s HC H IH]; constructor; [now apply lower_scalar|exact IH]. Qed.
Lemma lower_same : forall a b, lower_byte a = lower_byte b <-> same_letter a b.
Proof.
  intros a b. unfold lower_byte, same_letter. destruct ((0x41 <=? a) && (a <=? 0x5A)) eqn:EA, ((0x41 <=? b) && (b <=? 0x5A)) eqn:EB; lia.
Qed.
Theorem eq_ignore_spec : forall s t, scalars s -> scalars t -> eq_ignore_ascii_case s t = true <-> Forall2 same_letter s t.
Proof.
  intros s t HS HT. unfold eq_ignore_ascii_case. rewrite eq_ignore_map, !lower_encode. split.
  - intro E. apply encode_all_inj in E; [|now apply lower_scalars|now apply lower_scalars]. clear HS HT. revert t E. induction s as [|a s IH]; intros [|b t] E; try discriminate; constructor.
    + apply lower_same. now injection E.
    + apply IH. now injection E.
  - intro F. f_equal. clear HS HT. induction F as [|a b s t HA F IH]; [reflexivity|]. cbn. rewrite IH. f_equal. now apply lower_same.
Qed.

(** * Escapes *)
Definition horner (vs : list N) (n : N) : N := fold_left (fun n v => 16 * n + v) vs n.
Lemma hex_value : forall fuel c acc, c < 16 ^ N.of_nat fuel -> fuel <> 0%nat -> horner (hex_digits fuel c acc) 0 = horner acc c.
Proof.
  induction fuel as [|f IH]; intros c acc H NZ; [congruence|]. cbn [hex_digits]. pose proof (N.div_mod c 16 ltac:(lia)) as D.
  destruct (N.eqb_spec (c / 16) 0) as [E|E].
  - cbn [horner fold_left]. unfold horner. f_equal. lia.
  - rewrite IH.
    + cbn [horner fold_left]. unfold horner. f_equal. lia.
    + rewrite Nat2N.inj_succ, N.pow_succ_r' in H. apply N.div_lt_upper_bound; lia.
    + intros ->. cbn in H. change (16 ^ 1) with 16 in H. apply E. apply N.div_small. lia.
Qed.
Lemma hex_small : forall fuel c acc, Forall (fun v => v < 16) acc -> Forall (fun v => v < 16) (hex_digits fuel c acc).
Proof.
  induction fuel as [|f IH]; intros c acc H; [exact H|]. cbn [hex_digits]. assert (F : Forall (fun v => v < 16) (c mod 16 :: acc)) by (constructor; [apply N.mod_lt; lia|exact H]).
  destruct (c / 16 =? 0); [exact F|]. now apply IH.
Qed.
Lemma hex_char_cases : forall d, d < 16 -> (0x30 <= hex_char d <= 0x39 /\ d = hex_char d - 0x30) \/ (0x61 <= hex_char d <= 0x66 /\ d = hex_char d - 0x61 + 10).
Proof. intros d H. unfold hex_char. destruct (N.ltb_spec d 10); lia. Qed.
Lemma unescape_digits : forall vs n t, Forall (fun v => v < 16) vs -> unescape (Digits n) (map hex_char vs ++ 0x7D :: t) = consed (horner vs n) (unescape Outside t).
Proof.
  intros vs n t F. revert n. induction F as [|v vs HV F IH]; intro n; [reflexivity|]. cbn [map app unescape]. unfold in_range.
  destruct (hex_char_cases v HV) as [(B & E)|(B & E)]; set (h := hex_char v) in *.
  - replace (h =? 0x7D) with false by lia. replace ((0x30 <=? h) && (h <=? 0x39)) with true by lia. rewrite IH. unfold horner. cbn [fold_left]. now rewrite E.
  - replace (h =? 0x7D) with false by lia. replace ((0x30 <=? h) && (h <=? 0x39)) with false by lia. replace ((0x61 <=? h) && (h <=? 0x66)) with true by lia.
    rewrite IH. unfold horner. cbn [fold_left]. now rewrite E.
Qed.
Lemma unescape_unicode : forall c t, is_scalar c = true -> unescape Outside (escape_unicode1 c ++ t) = consed c (unescape Outside t).
Proof.
  intros c t H. unfold escape_unicode1. rewrite <- !app_assoc. cbn [app]. cbn [unescape].
  change (0x5C =? 0x5C) with true. change (0x75 =? 0x74) with false. change (0x75 =? 0x72) with false. change (0x75 =? 0x6E) with false.
  change ((0x75 =? 0x27) || (0x75 =? 0x22) || (0x75 =? 0x5C)) with false. change (0x75 =? 0x75) with true. change (0x7B =? 0x7B) with true. cbv iota.
  rewrite unescape_digits by (apply hex_small; constructor). f_equal. rewrite hex_value; [reflexivity| |discriminate].
  unfold is_scalar in H. change (16 ^ N.of_nat 6) with 0x1000000. lia.
Qed.
Lemma unescape_default : forall c t, is_scalar c = true -> unescape Outside (escape_default1 c ++ t) = consed c (unescape Outside t).
Proof.
  intros c t H. unfold escape_default1.
  destruct (N.eqb_spec c 0x9) as [->|N1]; [reflexivity|]. destruct (N.eqb_spec c 0xD) as [->|N2]; [reflexivity|]. destruct (N.eqb_spec c 0xA) as [->|N3]; [reflexivity|].
  destruct ((c =? 0x27) || (c =? 0x22) || (c =? 0x5C)) eqn:E.
  - cbn [app unescape]. change (0x5C =? 0x5C) with true. cbv iota. replace (c =? 0x74) with false by lia. replace (c =? 0x72) with false by lia. replace (c =? 0x6E) with false by lia. now rewrite E.
  - destruct ((0x20 <=? c) && (c <=? 0x7E)) eqn:EP; [|now apply unescape_unicode]. cbn [app unescape]. now replace (c =? 0x5C) with false by lia.
Qed.
Theorem escape_unicode_back : forall s, scalars s -> unescape Outside (escape_unicode s) = Some s.
Proof. intros s H. induction H as [|c s HC H IH]; [reflexivity|]. change (escape_unicode (c :: s)) with (escape_unicode1 c ++ escape_unicode s). rewrite unescape_unicode by exact HC. now rewrite IH. Qed.
Theorem escape_default_back : forall s, scalars s -> unescape Outside (escape_default s) = Some s.
Proof. intros s H. induction H as [|c s HC H IH]; [reflexivity|]. change (escape_default (c :: s)) with (escape_default1 c ++ escape_default s). rewrite unescape_default by exact HC. now rewrite IH. Qed.
Lemma escape_unicode_plain : forall c, Forall (fun x => 0x20 <= x <= 0x7E) (escape_unicode1 c).
Proof.
  intro c. unfold escape_unicode1. repeat (apply Forall_cons; [lia|]). apply Forall_app. split; [|repeat constructor; lia].
  pose proof (hex_small 6 c [] (Forall_nil _)) as F. induction F as [|v vs HV F IH]; constructor; [|exact IH]. destruct (hex_char_cases v HV); lia.
Qed.
Lemma escape_default_plain : forall c, Forall (fun x => 0x20 <= x <= 0x7E) (escape_default1 c).
Proof.
  intro c. unfold escape_default1.
  destruct (N.eqb_spec c 0x9) as [->|N1]; [repeat constructor; lia|]. destruct (N.eqb_spec c 0xD) as [->|N2]; [repeat constructor; lia|]. destruct (N.eqb_spec c 0xA) as [->|N3]; [repeat constructor; lia|].
  destruct ((c =? 0x27) || (c =? 0x22) || (c =? 0x5C)) eqn:E; [repeat constructor; lia|]. destruct ((0x20 <=? c) && (c <=? 0x7E)) eqn:EP; [repeat constructor; lia|]. apply escape_unicode_plain.
Qed.
Theorem escapes_printable : forall s, Forall (fun x => 0x20 <= x <= 0x7E) (escape_unicode s) /\ Forall (fun x => 0x20 <= x <= 0x7E) (escape_default s).
Proof.
  induction s as [|c s [IH1 IH2]]; [split; constructor|]. split.
  - change (escape_unicode (c :: s)) with (escape_unicode1 c ++ escape_unicode s). apply Forall_app. split; [apply escape_unicode_plain|exact IH1].
  - change (escape_default (c :: s)) with (escape_default1 c ++ escape_default s). apply Forall_app. split; [apply escape_default_plain|exact IH2].
Qed.
Theorem escapes_valid : forall s, string_ok (escape_unicode s) /\ string_ok (escape_default s).
Proof.
  intro s. destruct (escapes_printable s) as [P1 P2]. split; apply plain_ok; (eapply Forall_impl; [|eassumption]); intros c HC; right; right; exact HC.
Qed.

Lemma hex_digit : forall v, v < 16 -> digit v (hex_char v).
Proof.
  intros v H. unfold hex_char. destruct (N.ltb_spec v 10); [now apply decimal_digit|].
  replace (0x57 + v) with (0x61 + (v - 10)) by lia. apply letter_digit. lia.
Qed.
Lemma hex_form : forall fuel c acc, c < 16 ^ N.of_nat fuel -> fuel <> 0%nat ->
  exists ds, hex_digits fuel c acc = ds ++ acc /\ hexadecimal c (map hex_char ds).
Proof.
  induction fuel as [|f IH]; intros c acc H NZ; [congruence|]. cbn [hex_digits]. pose proof (N.div_mod c 16 ltac:(lia)) as D.
  pose proof (N.mod_lt c 16 ltac:(lia)) as M. destruct (N.eqb_spec (c / 16) 0) as [E|E].
  - exists [c mod 16]. split; [reflexivity|]. replace c with (c mod 16) at 1 by lia. now apply one_digit, hex_digit.
  - destruct (IH (c / 16) (c mod 16 :: acc)) as (ds & ED & HD).
    + rewrite Nat2N.inj_succ, N.pow_succ_r' in H. apply N.div_lt_upper_bound; lia.
    + intros ->. cbn in H. change (16 ^ 1) with 16 in H. apply E. apply N.div_small. lia.
    + exists (ds ++ [c mod 16]). split; [now rewrite ED, <- app_assoc|]. rewrite map_app. cbn [map]. rewrite D at 1.
      apply more_digits; [lia|exact HD|now apply hex_digit].
Qed.
Lemma unicode_form : forall c, is_scalar c = true -> by_number c (escape_unicode1 c).
Proof.
  intros c H. destruct (hex_form 6 c []) as (ds & ED & HD); [|discriminate|].
  - unfold is_scalar in H. change (16 ^ N.of_nat 6) with 0x1000000. lia.
  - exists (map hex_char ds). split; [exact HD|]. unfold escape_unicode1. now rewrite ED, app_nil_r.
Qed.
Lemma default_form : forall c, is_scalar c = true -> by_default c (escape_default1 c).
Proof.
  intros c H. unfold escape_default1.
  destruct (N.eqb_spec c 0x9) as [->|N1]; [apply short_escape; cbn; tauto|]. destruct (N.eqb_spec c 0xD) as [->|N2]; [apply short_escape; cbn; tauto|].
  destruct (N.eqb_spec c 0xA) as [->|N3]; [apply short_escape; cbn; tauto|].
  destruct ((c =? 0x27) || (c =? 0x22) || (c =? 0x5C)) eqn:E.
  - apply short_escape. rewrite !orb_true_iff, !N.eqb_eq in E. destruct E as [[->| ->]| ->]; cbn; tauto.
  - assert (NI : ~ In c (map fst short_escapes)) by (cbn; intuition lia).
    destruct ((0x20 <=? c) && (c <=? 0x7E)) eqn:EP; [apply as_itself; [exact NI|lia|reflexivity]|]. apply numbered; [exact NI|lia|now apply unicode_form].
Qed.
Theorem escapes_form : forall s, scalars s ->
  (exists es, Forall2 by_number s es /\ escape_unicode s = concat es) /\
  (exists es, Forall2 by_default s es /\ escape_default s = concat es).
Proof.
  intros s H. split; [exists (map escape_unicode1 s)|exists (map escape_default1 s)]; (split; [|now rewrite <- flat_map_concat_map]);
    (induction H as [|c s HC H IH]; [constructor|cbn; constructor; [|exact IH]]); [now apply unicode_form|now apply default_form].
Qed.

(** * Matches from the right *)
Lemma rmatches_spec : forall fuel s p, scalars s -> scalars p -> p <> [] -> (str_len s < fuel)%nat -> rightmost p s (rmatches_go fuel (encode_all p) (encode_all s)).
Proof.
  induction fuel as [|f IH]; intros s p HS HP NE L; [lia|]. cbn [rmatches_go]. change (rfind_bytes (encode_all p) (encode_all s)) with (text_rfind s p).
  destruct (text_rfind s p) as [i|] eqn:E.
  - apply text_rfind_spec in E; auto. destruct E as [(a & b & -> & <-) M]. rewrite encode_all_app, <- encode_all_length, firstn_app, firstn_all, Nat.sub_diag, firstn_O, app_nil_r.
    rewrite encode_all_length. apply next_left; [exact M|]. apply Forall_app in HS. destruct HS as [HA _]. apply IH; auto.
    rewrite !str_len_app in L. assert (0 < str_len p)%nat by (destruct p as [|c p]; [congruence|]; cbn [str_len]; pose proof (utf8_len_pos c); lia). lia.
  - apply no_more_left. now apply text_rfind_none.
Qed.
Theorem rmatch_indices_spec : forall s p, scalars s -> scalars p -> p <> [] -> rightmost p s (text_rmatch_indices s p).
Proof. intros s p HS HP NE. unfold text_rmatch_indices. destruct p; [congruence|]. apply rmatches_spec; auto. rewrite encode_all_length. lia. Qed.
Lemma app_same_len : forall a b c d : list N, str_len a = str_len c -> a ++ b = c ++ d -> a = c.
Proof.
  induction a as [|x a IH]; intros b [|y c] d L E; auto; cbn [str_len] in L; [pose proof (utf8_len_pos y); lia|pose proof (utf8_len_pos x); lia|].
  cbn in E. injection E as -> E. f_equal. apply (IH b c d); [lia|exact E].
Qed.
Lemma rightmost_unique : forall p s l1, rightmost p s l1 -> forall l2, rightmost p s l2 -> l1 = l2.
Proof.
  intros p s l1 H. induction H as [s H|a b l M H IH]; intros l2 H2.
  - inversion H2 as [|a b l M H3]; subst; [reflexivity|]. elim (H (str_len a)). exists a, b. auto.
  - inversion H2 as [s' H3 E1|a' b' l' M' H3 E1]; subst.
    + elim (H3 (str_len a)). exists a, b. auto.
    + assert (EL : str_len a = str_len a').
      { apply Nat.le_antisymm; [apply M'; exists a, b; auto|apply M; exists a', b'; auto]. }
      assert (a' = a) as -> by (symmetry in EL; eapply app_same_len; [exact EL|exact E1]). f_equal. now apply IH.
Qed.

(** * Errors *)
Theorem from_text_vec_ok : forall check bs t, from_text_vec check bs = VOk t <-> exists s, scalars s /\ bs = encode_all s /\ string_from_text check s = TOk t.
Proof.
  intros check bs t. unfold from_text_vec. destruct (decode bs) as [s rest] eqn:D. destruct (decode_spec _ _ _ D) as (HS & E & _). split.
  - intro H. destruct rest; [|discriminate]. rewrite app_nil_r in E. exists s. split; [exact HS|]. split; [exact E|]. destruct (string_from_text check s); congruence.
  - intros (u & HU & -> & H). pose proof (decode_encode u [] HU eq_refl) as D2. rewrite app_nil_r, D in D2. injection D2 as -> ->. now rewrite H.
Qed.
Theorem from_text_vec_err : forall check bs b n, from_text_vec check bs = VErr b n ->
  b = bs /\ from_bytes (string_from_text check) bs = TErr n.
Proof.
  intros check bs b n H. unfold from_text_vec, from_bytes in *. destruct (decode bs) as [s rest] eqn:D. destruct (decode_spec _ _ _ D) as (HS & E & _). destruct rest as [|x rest].
  - destruct (string_from_text check s) as [t|m]; [discriminate|]. injection H as <- <-. rewrite app_nil_r in E. auto.
  - injection H as <- <-. auto.
Qed.
