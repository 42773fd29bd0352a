(** Streams that are cut off. *)
From Coq Require Import NArith Arith List Bool Lia ZifyBool ZifyNat ZifyN.
From Verif Require DebugProps.
From Verif Require Import Base Ucd UcdTables Norm Chars TextTables TextUtils UcdFacts NormFacts CharFacts DocTable SpecText TextFacts PipelineFacts DocFacts IsoFacts
  Utf8 Utf8Facts SpecUtf8 Utf8Lossy Input Output ReadFacts ReadInv ReadSession SpecRead ReadChunk SpecEscape EscapeFacts EscapeRun ReadProps KeepFacts ReadPieces SpecConv ConvFacts
  SpecWrite WriteFacts WriteProps Strings StringFacts ConcatFacts EdgeFacts SpecString StringProps ScalarFacts LossyProps JoinProps Fuzz FuzzProps SpecMore CanonProps SpecCat SpecCrash.
Import ListNotations.
Local Open Scope N_scope.
Arguments N.add : simpl never.
Arguments N.leb : simpl never.
Arguments N.ltb : simpl never.
Arguments N.eqb : simpl never.
Local Opaque pipeline.

(** * Bytes *)
(** [k] is empty, or a part of the encoding of the first character of [r]. *)
Definition half (k r : list N) : Prop := k = [] \/ exists c r' k', r = c :: r' /\ k <> [] /\ k' <> [] /\ encode c = k ++ k'.
Lemma bytes_cut : forall s b, beginning b (encode_all s) -> exists q r k, s = q ++ r /\ b = encode_all q ++ k /\ half k r.
Proof.
  induction s as [|c s IH]; intros b [x E].
  - exists [], [], []. symmetry in E. apply app_eq_nil in E. destruct E as [-> _]. split; [reflexivity|]. split; [reflexivity|now left].
  - change (encode_all (c :: s)) with (encode c ++ encode_all s) in E. apply app_eq_app in E. destruct E as (l & [[E1 E2]|[E1 E2]]).
    + destruct b as [|b0 b]; [exists [], (c :: s), []; split; [reflexivity|]; split; [reflexivity|now left]|]. destruct l as [|l0 l].
      * rewrite app_nil_r in E1. exists [c], s, []. split; [reflexivity|]. split; [|now left]. cbn [encode_all flat_map]. now rewrite !app_nil_r.
      * exists [], (c :: s), (b0 :: b). split; [reflexivity|]. split; [reflexivity|]. right. exists c, s, (l0 :: l). repeat split; auto; discriminate.
    + destruct (IH l) as (q & r & k & -> & -> & H); [now exists x|]. exists (c :: q), r, k. split; [reflexivity|]. split; [|exact H]. rewrite E1. cbn [encode_all flat_map]. now rewrite <- app_assoc.
Qed.
Lemma half_decoding : forall k r, scalars r -> half k r -> lossy_decoding k (match k with [] => [] | _ => [0xFFFD] end).
Proof.
  intros k r S [->|(c & r' & k' & -> & NK & NK' & E)]; [constructor|]. destruct k as [|k0 k]; [congruence|]. rewrite <- (app_nil_r (k0 :: k)). apply ld_bad; [|constructor].
  pose proof (Forall_inv S) as SC. cbn beta in SC. split; [discriminate|]. split; [|split].
  - intros c' u SC' X. rewrite app_nil_r in X. rewrite X in E. rewrite <- app_assoc in E. pose proof (decode1_encode c [] SC) as D1. rewrite app_nil_r, E, decode1_encode in D1 by exact SC'.
    injection D1 as _ D1. apply app_eq_nil in D1. tauto.
  - right. exists c, k'. auto.
  - intros m' t' X _. rewrite app_nil_r in X. rewrite X, app_length. lia.
Qed.
Lemma cut_decoding : forall q r k x, scalars (q ++ r) -> half k r -> lossy_decoding (encode_all q ++ k) x -> x = q ++ match k with [] => [] | _ => [0xFFFD] end.
Proof.
  intros q r k x S H D. apply (lossy_decoding_unique _ _ _ D). clear D x. unfold scalars in S. apply Forall_app in S. destruct S as [SQ SR].
  induction SQ as [|c q SC SQ IH]; [now apply (half_decoding k r)|]. change (encode_all (c :: q) ++ k) with ((encode c ++ encode_all q) ++ k). rewrite <- app_assoc. now apply ld_char.
Qed.

(** * Where a stored text can be cut *)
Inductive cut_at (bom cr : bool) (t : list N) : list N -> list N -> list N -> Prop :=
| cut_bom : forall k r, bom = true -> half k r -> r = stored bom cr t -> cut_at bom cr t [] [] k
| cut_char : forall q r k, t = q ++ r -> half k (as_sent cr r) -> cut_at bom cr t q (stored bom cr q) k
| cut_crlf : forall q r, cr = true -> t = q ++ 0xA :: r -> cut_at bom cr t (q ++ [0xA]) (stored bom cr q ++ [0xD]) [].
Lemma sent_cut : forall cr t q0 r0, as_sent cr t = q0 ++ r0 -> (exists q r, t = q ++ r /\ q0 = as_sent cr q /\ r0 = as_sent cr r) \/
  (exists q r, cr = true /\ t = q ++ 0xA :: r /\ q0 = as_sent cr q ++ [0xD] /\ r0 = 0xA :: as_sent cr r).
Proof.
  intros [|] t q0 r0; [|intro E; left; exists q0, r0; auto]. revert q0 r0. induction t as [|c t IH]; intros q0 r0 E.
  - cbn in E. symmetry in E. apply app_eq_nil in E. destruct E as [-> ->]. left. exists [], []. auto.
  - destruct q0 as [|x q0]; [left; exists [], (c :: t); auto|]. change (as_sent true (c :: t)) with (as_sent true ([c] ++ t)) in E. rewrite as_sent_app in E.
    assert (AP : forall q, as_sent true (c :: q) = as_sent true [c] ++ as_sent true q) by (intro q; change (c :: q) with ([c] ++ q); apply as_sent_app).
    assert (CS : (as_sent true [c] = [0xD; 0xA] /\ c = 0xA) \/ as_sent true [c] = [c]).
    { cbn. destruct (N.eqb_spec c 10) as [->|]; [left|right]; auto. }
    destruct CS as [[CS ->]|CS]; rewrite CS in E, AP.
    + destruct q0 as [|y q0].
      * cbn [app] in E. injection E as <- <-. right. exists [], t. auto.
      * cbn [app] in E. injection E as <- <- E. destruct (IH _ _ E) as [(q & r & -> & -> & ->)|(q & r & _ & -> & -> & ->)].
        -- left. exists (0xA :: q), r. rewrite AP. auto.
        -- right. exists (0xA :: q), r. rewrite AP. auto.
    + cbn [app] in E. injection E as <- E. destruct (IH _ _ E) as [(q & r & -> & -> & ->)|(q & r & _ & -> & -> & ->)].
      * left. exists (c :: q), r. rewrite AP. auto.
      * right. exists (c :: q), r. rewrite AP. auto.
Qed.
Lemma half_ascii : forall k c r, c < 0x80 -> half k (c :: r) -> k = [].
Proof.
  intros k c r H [->|(c' & r' & k' & E & NK & NK' & EE)]; [reflexivity|]. injection E as <- _. unfold encode in EE. replace (c <? 0x80) with true in EE by lia. destruct k as [|x [|y k]]; [congruence| |]; injection EE as _ EE; [congruence|]. discriminate.
Qed.
Lemma stored_cut : forall bom cr t q0 r0 k, stored bom cr t = q0 ++ r0 -> half k r0 -> exists q, cut_at bom cr t q q0 k.
Proof.
  intros bom cr t q0 r0 k E H.
  assert (G : forall q1, as_sent cr t = q1 ++ r0 -> q0 = (if bom then [0xFEFF] else []) ++ q1 -> exists q, cut_at bom cr t q q0 k).
  { intros q1 E1 ->. destruct (sent_cut cr t q1 r0 E1) as [(q & r & ET & -> & ->)|(q & r & EC & ET & -> & ->)].
    - exists q. now apply (cut_char bom cr t q r k).
    - apply half_ascii in H; [|lia]. subst k. exists (q ++ [0xA]). rewrite app_assoc. now apply (cut_crlf bom cr t q r). }
  unfold stored in E. destruct bom; [|apply (G q0); auto]. destruct q0 as [|x q0].
  - exists []. apply (cut_bom true cr t k r0); auto.
  - cbn [app] in E. injection E as <- E. apply (G q0); auto.
Qed.

(** * What is read from it *)
Lemma clean_orc : clean 0xFFFD = true.
Proof. vm_compute. reflexivity. Qed.
Lemma clean_lf : clean 0xA = true.
Proof. vm_compute. reflexivity. Qed.
Lemma orc_facts : is_basic_text_end 0xFFFD = true /\ is_assigned 0xFFFD = true /\ is_basic_text_start 0xFFFD = true.
Proof. vm_compute. auto. Qed.
Lemma lf_facts : is_basic_text_end 0xA = true /\ is_assigned 0xA = true /\ is_basic_text_start 0xA = true.
Proof. vm_compute. auto. Qed.
Lemma cgj_facts : is_basic_text_start 0x34F = true /\ clean 0x34F = true /\ is_assigned 0x34F = true.
Proof. vm_compute. auto. Qed.
Lemma boring_ORC : boring 0xFFFD.
Proof. apply boring_b_spec. vm_compute. reflexivity. Qed.
Lemma stored_without : forall bom cr v z, all_clean v -> (forall u, v = [] -> z <> 0xFEFF :: u) -> without_bom (stored bom cr v ++ z) = as_sent cr v ++ z.
Proof.
  intros bom cr v z A Z. unfold stored. destruct bom; [reflexivity|]. cbn [app]. destruct v as [|c v].
  - specialize (fun u => Z u eq_refl). assert (E : as_sent cr [] = []) by (destruct cr; reflexivity). rewrite E. cbn [app]. destruct z as [|x z]; [reflexivity|]. cbn. destruct (N.eqb_spec x 0xFEFF) as [->|]; [|reflexivity]. exfalso. now apply (Z z).
  - pose proof (Forall_inv A) as C. apply clean_special in C. destruct C as (_ & _ & _ & C). change BOM with 0xFEFF in C.
    destruct cr; cbn; [destruct (c =? 10); cbn; [reflexivity|]|]; (destruct (N.eqb_spec c 0xFEFF); [contradiction|reflexivity]).
Qed.
Lemma sent_replaced_cr : forall nel lsps s, all_clean s -> replaced true (char_rep nel lsps) (as_sent true s ++ [0xD]) (map (fun c => [c]) s ++ [[0xA]]).
Proof.
  intros nel lsps s H. induction H as [|c s HC H IH].
  - cbn [map app]. change (as_sent true [] ++ [0xD]) with ([0xD] ++ []). constructor; [constructor| |constructor]. intros m r rest R E. cbn [app] in E. apply (f_equal (@length N)) in E. rewrite app_length in E. cbn [length] in *. lia.
  - destruct (clean_special _ HC) as (N1 & N2 & N3 & _).
    assert (K : forall x f, run_of x f -> forall y z t, f ++ y = z :: t -> z = x).
    { intros x f [NE F] y z t EF. destruct f as [|w f]; [congruence|]. injection EF as <- _. now inversion F. }
    pose proof (row_char true (char_rep nel lsps) c N1 N2 N3) as RC. rewrite (clean_char_rep nel lsps c HC) in RC. cbn [map app].
    destruct (c =? 0xA) eqn:EC.
    + apply N.eqb_eq in EC. subst c.
      change (as_sent true (0xA :: s) ++ [0xD]) with ([0xD; 0xA] ++ (as_sent true s ++ [0xD])). constructor; [constructor| |exact IH]. intros m r rest R E. cbn [app] in E.
      destruct R; cbn [app length] in *; try lia; try (injection E as <- _; contradiction);
        exfalso; symmetry in E; rewrite <- ?app_assoc in E; match goal with R : run_of ?x ?f |- _ => pose proof (K x f R _ _ _ E) as X; discriminate X end.
    + assert (EA : as_sent true (c :: s) ++ [0xD] = [c] ++ (as_sent true s ++ [0xD])).
      { unfold as_sent in *. cbn in *. now rewrite EC. }
      rewrite EA. constructor; [exact RC| |exact IH]. intros m r rest R E. cbn [app] in E.
      destruct R; cbn [app length] in *; try (injection E as -> _; contradiction); try lia;
        exfalso; symmetry in E; rewrite <- ?app_assoc in E; match goal with R : run_of ?x ?f |- _ => pose proof (K x f R _ _ _ E); congruence end.
Qed.
Lemma start_id : forall s, starts_ok s -> guard_start s = s.
Proof. intros [|c s] H; [reflexivity|]. cbn. now rewrite (H c s eq_refl). Qed.
(** The end of a text, made good. *)
Definition repair (v : list N) : list N :=
  match last_opt v with None => [] | Some c => if c =? 0xA then [] else if is_basic_text_end c then [0xA] else [0x34F; 0xA] end.
Lemma sent_translate : forall nel lsps cr v, all_clean v -> starts_ok v -> translate nel lsps (as_sent cr v) = v ++ repair v.
Proof.
  intros nel lsps cr v A S. rewrite (translate_replaced _ _ _ _ (sent_replaced cr nel lsps v A)), concat_singles, singles_newline, start_id by exact S.
  unfold guard_end, repair. destruct (last_opt v) as [c|]; [|reflexivity]. change LF with 0xA. destruct (N.eqb_spec c 0xA) as [->|NE]; cbn [negb].
  - rewrite (proj1 lf_facts). now rewrite !app_nil_r.
  - destruct (is_basic_text_end c); [reflexivity|]. now rewrite <- app_assoc.
Qed.
Lemma sent_translate_cr : forall nel lsps v, all_clean v -> starts_ok v -> translate nel lsps (as_sent true v ++ [0xD]) = v ++ [0xA].
Proof.
  intros nel lsps v A S. rewrite (translate_replaced _ _ _ _ (sent_replaced_cr nel lsps v A)), concat_app, concat_singles. cbn [concat app].
  assert (S2 : starts_ok (v ++ [0xA])) by (intros c t E; destruct v as [|d v]; [injection E as <- _; apply lf_facts|injection E as <- _; exact (S d v eq_refl)]).
  rewrite start_id by exact S2. unfold guard_end, needs_newline, last_nl. rewrite !last_opt_snoc. rewrite (proj1 lf_facts). cbn. now rewrite app_nil_r.
Qed.
Lemma beginning_starts : forall q t, beginning q t -> starts_ok t -> starts_ok q.
Proof. intros q t [r ->] H c u ->. exact (H c (u ++ r) eq_refl). Qed.
Lemma cut_translate : forall bom cr nel lsps t q q0 k, Forall allowed t -> starts_ok t -> cut_at bom cr t q q0 k ->
  beginning q t /\ exists e, translate nel lsps (without_bom (q0 ++ match k with [] => [] | _ => [0xFFFD] end)) = q ++ e /\
    (e = [0xFFFD; 0xA] \/ e = repair q).
Proof.
  intros bom cr nel lsps t q q0 k A S C. apply Forall_allowed_clean in A.
  assert (ORC : forall v, all_clean v -> starts_ok v -> translate nel lsps (as_sent cr v ++ [0xFFFD]) = v ++ [0xFFFD; 0xA]).
  { intros v AV SV. replace (as_sent cr v ++ [0xFFFD]) with (as_sent cr (v ++ [0xFFFD])) by (rewrite as_sent_app; destruct cr; reflexivity).
    rewrite sent_translate.
    - unfold repair. rewrite last_opt_snoc. change (0xFFFD =? 0xA) with false. rewrite (proj1 orc_facts). now rewrite <- app_assoc.
    - apply Forall_app. split; [exact AV|]. constructor; [exact clean_orc|constructor].
    - intros c u E. destruct v as [|d v]; [injection E as <- _; apply orc_facts|injection E as <- _; exact (SV d v eq_refl)]. }
  destruct C as [k r EB H ER|q r k ET H|q r EC ET].
  - split; [now exists t|]. destruct k as [|k0 k].
    + exists []. split; [reflexivity|now right].
    + exists [0xFFFD; 0xA]. split; [|now left]. change (without_bom ([] ++ [0xFFFD])) with ([] ++ [0xFFFD] : list N). rewrite <- (ORC [] (Forall_nil _)) by (intros c u E; discriminate). f_equal. now destruct cr.
  - assert (B : beginning q t) by now exists r. split; [exact B|]. pose proof (beginning_starts q t B S) as SQ. rewrite ET in A. apply Forall_app in A. destruct A as [AQ _]. rewrite stored_without; [|exact AQ|destruct k; intros; discriminate]. destruct k as [|k0 k].
    + exists (repair q). rewrite app_nil_r, sent_translate by assumption. auto.
    + exists [0xFFFD; 0xA]. rewrite ORC by assumption. auto.
  - assert (B : beginning (q ++ [0xA]) t) by (exists r; now rewrite <- app_assoc). split; [exact B|]. assert (BQ : beginning q t) by now exists (0xA :: r). pose proof (beginning_starts q t BQ S) as SQ. rewrite ET in A. apply Forall_app in A. destruct A as [AQ _].
    exists []. rewrite app_nil_r, EC, stored_without; [|exact AQ|intros; discriminate]. rewrite sent_translate_cr by assumption. split; [now rewrite app_nil_r|]. right. unfold repair. rewrite last_opt_snoc. reflexivity.
Qed.
(** What is read is valid, and is converted to itself. *)
Lemma repaired_ok : forall q e, nfc_ss q -> Forall allowed q -> starts_ok q -> e = [0xFFFD; 0xA] \/ e = repair q -> string_ok (q ++ e) /\ In e repairs.
Proof.
  intros q e N A S H.
  assert (AL : forall x, clean x = true -> allowed x) by (intros x X; assert (Forall allowed [x]) as K by (apply Forall_allowed_clean; constructor; [exact X|constructor]); exact (Forall_inv K)).
  assert (SE : forall x u, is_basic_text_start x = true -> starts_ok (q ++ x :: u)).
  { intros x u SX c v E. destruct q as [|d q]; [injection E as <- _; exact SX|injection E as <- _; exact (S d q eq_refl)]. }
  assert (NN : nfc_ss []) by (split; reflexivity). assert (NL : nfc_ss [0xA]) by (apply (nfc_ss_split [] 0xA [] boring_LF); exact NN).
  assert (EL : forall u, ends_ok (u ++ [0xA])) by (intros u v c E; apply app_inj_tail in E; destruct E as [_ <-]; apply lf_facts).
  assert (W : forall x, boring x -> clean x = true -> is_basic_text_start x = true -> string_ok (q ++ [x; 0xA])).
  { intros x BX CX SX. split; [|split].
    - apply DebugProps.sub_ok_iff. split; [now apply nfc_ss_split|]. apply Forall_app. split; [exact A|]. constructor; [now apply AL|]. constructor; [apply AL; exact clean_lf|constructor].
    - now apply SE.
    - change [x; 0xA] with ([x] ++ [0xA]). rewrite app_assoc. apply EL. }
  destruct H as [->| ->].
  - split; [|cbn; auto]. apply W; [exact boring_ORC|exact clean_orc|apply orc_facts].
  - unfold repair. destruct (last_opt q) as [c|] eqn:LQ.
    + apply last_opt_some in LQ. destruct LQ as [u ->]. destruct (N.eqb_spec c 0xA) as [->|NE].
      * rewrite app_nil_r. split; [|cbn; auto]. split; [apply DebugProps.sub_ok_iff; auto|]. split; [exact S|apply EL].
      * destruct (is_basic_text_end c) eqn:EC.
        -- split; [|cbn; auto]. split; [|split; [apply SE; apply lf_facts|apply EL]]. apply DebugProps.sub_ok_iff. split; [now apply (nfc_ss_split _ 0xA [] boring_LF)|]. apply Forall_app. split; [exact A|]. constructor; [apply AL; exact clean_lf|constructor].
        -- split; [|cbn; auto]. apply W; [exact boring_CGJ|apply cgj_facts|apply cgj_facts].
    + destruct q as [|c q]; [|apply last_opt_none in LQ; discriminate]. cbn [app]. split; [|cbn; auto]. split; [apply DebugProps.sub_ok_iff; split; [exact NN|constructor]|]. split; [exact S|intros v c E; destruct v; discriminate].
Qed.
Lemma repairs_assigned : forall e, In e repairs -> Forall (fun c => is_assigned c = true) e.
Proof. intros e [<-|[<-|[<-|[<-|[]]]]]; repeat constructor; vm_compute; reflexivity. Qed.
Lemma repaired_preceded : forall q e, preceded q -> In e repairs -> preceded (q ++ e).
Proof.
  intros q e P H a c b E U. apply app_eq_app in E. destruct E as (l & [[E1 E2]|[E1 E2]]).
  - destruct l as [|x l].
    + exfalso. cbn [app] in E2. pose proof (repairs_assigned e H) as F. rewrite <- E2 in F. pose proof (Forall_inv F) as F1. cbn in F1. congruence.
    + injection E2 as <- _. exact (P a c l E1 U).
  - exfalso. pose proof (repairs_assigned e H) as F. rewrite E2 in F. apply Forall_app in F. destruct F as [_ F]. pose proof (Forall_inv F) as F1. cbn in F1. congruence.
Qed.
(** Everything that is all there is read. *)
Lemma half_short : forall k c r, half k (c :: r) -> (length k < utf8_len c)%nat.
Proof.
  intros k c r [->|(c' & r' & k' & E & _ & NK' & EE)]; [pose proof (utf8_len_pos c); cbn; lia|]. injection E as <- _. rewrite <- encode_length, EE, app_length. destruct k'; [congruence|]. cbn. lia.
Qed.
Lemma stored_app : forall bom cr a b, stored bom cr (a ++ b) = stored bom cr a ++ as_sent cr b.
Proof. intros bom cr a b. unfold stored. now rewrite as_sent_app, app_assoc. Qed.
Lemma beginnings : forall a b t, beginning a t -> beginning b t -> beginning a b \/ exists c u, a = b ++ c :: u.
Proof.
  intros a b t [x ->] [y E]. apply app_eq_app in E. destruct E as (l & [[E _]|[E _]]); [|left; now exists l]. destruct l as [|c l]; [left; exists []; now rewrite app_nil_r in E |- *|]. right. now exists c, l.
Qed.
Lemma survivors : forall bom cr t q q0 k q', cut_at bom cr t q q0 k -> beginning q' t -> survives bom cr q' (encode_all q0 ++ k) -> beginning q' q.
Proof.
  intros bom cr t q q0 k q' C B' [z SV]. apply (f_equal (@length N)) in SV. rewrite !app_length, !encode_all_length in SV.
  destruct C as [k r EB H ER|q r k ET H|q r EC ET].
  - exfalso. cbn [str_len] in SV. subst bom r. apply half_short in H. assert (L : (utf8_len 0xFEFF <= str_len (stored true cr q'))%nat) by (cbn [stored app str_len]; lia). lia.
  - assert (B : beginning q t) by now exists r. destruct (beginnings q' q t B' B) as [|(c & u & ->)]; [assumption|exfalso]. destruct B' as [y ET']. rewrite ET, <- app_assoc in ET'. apply app_inv_head in ET'. cbn [app] in ET'. subst r.
    rewrite stored_app, StringFacts.str_len_app in SV. change (c :: u) with ([c] ++ u) in SV. change (c :: u ++ y) with ([c] ++ u ++ y) in H. rewrite as_sent_app in SV, H. rewrite StringFacts.str_len_app in SV.
    assert (L : (length k < str_len (as_sent cr [c]))%nat).
    { destruct (as_sent cr [c]) as [|x xs] eqn:EX; [destruct cr; cbn in EX; [destruct (c =? 10)|]; discriminate|]. cbn [app] in H. apply half_short in H. cbn [str_len]. lia. }
    lia.
  - assert (B : beginning (q ++ [0xA]) t) by (exists r; now rewrite <- app_assoc). destruct (beginnings q' (q ++ [0xA]) t B' B) as [|(c & u & ->)]; [assumption|exfalso].
    subst cr. rewrite !stored_app, !StringFacts.str_len_app in SV. change (as_sent true [0xA]) with [0xD; 0xA] in SV. cbn [str_len length] in SV. change (utf8_len 0xD) with 1%nat in SV. change (utf8_len 0xA) with 1%nat in SV. lia.
Qed.
Lemma repaired_lines : forall q e, e = [0xFFFD; 0xA] \/ e = repair q -> line_terminated (q ++ e).
Proof.
  intros q e [->| ->].
  - right. exists (q ++ [0xFFFD]). now rewrite <- app_assoc.
  - unfold repair. destruct (last_opt q) as [c|] eqn:LQ.
    + destruct (N.eqb_spec c 0xA) as [->|NE]; [rewrite app_nil_r; right; now apply last_opt_some|]. right. destruct (is_basic_text_end c); [now exists q|]. exists (q ++ [0x34F]). now rewrite <- app_assoc.
    + apply last_opt_none in LQ. subst q. now left.
Qed.
Lemma stored_scalars : forall bom cr t, scalars t -> scalars (stored bom cr t).
Proof.
  intros bom cr t S. unfold scalars, stored in *. apply Forall_app. split; [destruct bom; repeat constructor|]. destruct cr; [|exact S]. induction S as [|c t SC S IH]; [constructor|].
  change (c :: t) with ([c] ++ t). rewrite as_sent_app. apply Forall_app. split; [|exact IH]. cbn. destruct (c =? 10); repeat constructor; exact SC.
Qed.
Section read.
Variables (bom cr nel lsps : bool) (t b x : list N).
Hypotheses (OK : substring_ok t) (SO : starts_ok t) (SC : scalars t) (P : preceded t) (CUT : cut_off bom cr t b) (D : lossy_decoding b x).
Lemma cut_text : exists q e, beginning q t /\ translate nel lsps (without_bom x) = q ++ e /\ pipeline (q ++ e) = q ++ e /\ In e repairs /\ string_ok (q ++ e) /\ line_terminated (q ++ e) /\
  (forall q', beginning q' t -> survives bom cr q' b -> beginning q' q).
Proof.
  destruct (bytes_cut _ _ CUT) as (q0 & r0 & k & E & -> & H). pose proof (stored_scalars bom cr t SC) as S. rewrite E in S.
  rewrite (cut_decoding q0 r0 k x S H D). destruct (stored_cut bom cr t q0 r0 k E H) as [q C].
  apply DebugProps.sub_ok_iff in OK. destruct OK as [NT AT]. destruct (cut_translate bom cr nel lsps t q q0 k AT SO C) as (B & e & TR & HE). exists q, e.
  assert (PQ : nfc_ss q /\ Forall allowed q /\ starts_ok q /\ preceded q).
  { split; [destruct B as [r ->]; now apply nfc_ss_app in NT|]. split; [destruct B as [r ->]; now apply Forall_app in AT|]. split; [now apply (beginning_starts q t)|].
    destruct B as [r ->]. intros a c u -> U. apply (P a c (u ++ r)); [now rewrite <- app_assoc|exact U]. }
  destruct PQ as (NQ & AQ & SQ & PQ). destruct (repaired_ok q e NQ AQ SQ HE) as [OKE IE]. split; [exact B|]. split; [exact TR|]. split; [apply ok_pipeline; [exact OKE|now apply repaired_preceded]|]. split; [exact IE|]. split; [exact OKE|]. split; [now apply repaired_lines|].
  intros q' B'. now apply (survivors bom cr t q q0 k q').
Qed.
End read.
Theorem cut_read : forall bom cr nel lsps t b sc o, substring_ok t -> starts_ok t -> scalars t -> Forall (fun c => is_assigned c = true) t -> cut_off bom cr t b ->
  lossy_decoding b (stream_text sc) -> no_push sc -> bom_visible sc -> gives nel lsps sc o ->
  exists q e, beginning q t /\ o = q ++ e /\ In e repairs /\ string_ok o /\ line_terminated o /\ (forall q', beginning q' t -> survives bom cr q' b -> beginning q' q).
Proof.
  intros bom cr nel lsps t b sc o OK SO SC A CUT D NP BV (sizes & rs & j & rest & R & EN & <-). destruct (session_end _ _ _ _ _ _ _ R EN) as (-> & _).
  destruct (cut_text bom cr nel lsps t b (stream_text sc) OK SO SC (assigned_preceded t A) CUT D) as (q & e & B & TR & PL & IE & OKE & LT & MX). exists q, e.
  assert (EQ : converted_stream nel lsps sc = q ++ e).
  { rewrite (converted_plain _ _ _ NP BV); rewrite TR; [exact PL|]. apply assigned_unguarded. apply Forall_app. split; [destruct B as [r ->]; now apply Forall_app in A|now apply repairs_assigned]. }
  rewrite EQ. auto 10.
Qed.
Theorem cut_read_at_once : forall bom cr nel lsps t b x o, substring_ok t -> starts_ok t -> scalars t -> preceded t -> cut_off bom cr t b ->
  lossy_decoding b x -> gives nel lsps [Chunk x End] o ->
  exists q e, beginning q t /\ o = q ++ e /\ In e repairs /\ string_ok o /\ line_terminated o /\ (forall q', beginning q' t -> survives bom cr q' b -> beginning q' q).
Proof.
  intros bom cr nel lsps t b x o OK SO SC A CUT D (sizes & rs & j & rest & R & EN & <-). destruct (session_end _ _ _ _ _ _ _ R EN) as (-> & _).
  destruct (cut_text bom cr nel lsps t b x OK SO SC A CUT D) as (q & e & B & TR & PL & IE & OKE & LT & MX). exists q, e. rewrite converted_whole, TR, PL. auto 10.
Qed.

(** * What a writer has sent *)
Lemma spec_ops_prefix : forall cr os d bs d', Forall plain_op os -> spec_ops cr d os = (bs, d') -> exists a c, sent d' = sent d ++ a /\ (failed d = true -> a = []) /\ as_sent cr (concat (map op_text os)) = a ++ c.
Proof.
  intros cr. assert (STUCK : forall os d bs d', failed d = true -> spec_ops cr d os = (bs, d') -> sent d' = sent d).
  { induction os as [|o os IH]; intros d bs d' F H; cbn [spec_ops] in H; [now injection H as _ <-|]. destruct (spec_op cr d o) as [r d1] eqn:E1. destruct (spec_ops cr d1 os) as [rs d2] eqn:E2. injection H as _ <-.
    assert (K : failed d1 = true /\ sent d1 = sent d).
    { destruct o; cbn [spec_op] in E1; unfold spec_write, spec_write_text, spec_flush, spec_close in E1; rewrite ?F in E1; try (injection E1 as _ <-; auto).
      destruct (decode _) as [[|y l] [|z m]]; rewrite ?F in E1; injection E1 as _ <-; auto. }
    destruct K as [K1 K2]. rewrite (IH _ _ _ K1 E2). exact K2. }
  assert (NX : as_sent cr [] = []) by (destruct cr; reflexivity).
  induction os as [|o os IH]; intros d bs d' HP H.
  - cbn in H. injection H as _ <-. exists [], []. rewrite app_nil_r. cbn [map concat]. auto.
  - destruct (failed d) eqn:F; [exists [], (as_sent cr (concat (map op_text (o :: os)))); rewrite app_nil_r; split; [now apply (STUCK _ _ _ _ F H)|auto]|].
    cbn [spec_ops] in H. destruct (spec_op cr d o) as [r d1] eqn:E1. destruct (spec_ops cr d1 os) as [rs d2] eqn:E2. injection H as _ <-.
    assert (K : exists a1 c1, sent d1 = sent d ++ a1 /\ as_sent cr (op_text o) = a1 ++ c1 /\ (c1 = [] \/ failed d1 = true)).
    { assert (Q : forall y, spec_send cr d y = (r, d1) -> exists a1 c1, sent d1 = sent d ++ a1 /\ as_sent cr y = a1 ++ c1 /\ (c1 = [] \/ failed d1 = true)).
      { intros y SS. unfold spec_send in SS. destruct (fresh d && _).
        - injection SS as _ <-. exists [], (as_sent cr y). cbn. rewrite app_nil_r. auto.
        - destruct (outcomes d) as [|[|n] l]; injection SS as _ <-; cbn.
          + exists (as_sent cr y), []. rewrite app_nil_r. auto.
          + exists (as_sent cr y), []. rewrite app_nil_r. auto.
          + exists (firstn n (as_sent cr y)), (skipn n (as_sent cr y)). rewrite firstn_skipn. auto. }
      assert (NO : sent d1 = sent d -> forall y, failed d1 = true -> exists a1 c1, sent d1 = sent d ++ a1 /\ as_sent cr y = a1 ++ c1 /\ (c1 = [] \/ failed d1 = true)).
      { intros S1 y F1. exists [], (as_sent cr y). rewrite app_nil_r. auto. }
      assert (N0 : sent d1 = sent d -> exists a1 c1, sent d1 = sent d ++ a1 /\ as_sent cr [] = a1 ++ c1 /\ (c1 = [] \/ failed d1 = true)).
      { intro S1. exists [], []. rewrite app_nil_r, NX. auto. }
      assert (CALL : spec_call d = (r, d1) -> sent d1 = sent d) by (unfold spec_call; destruct (outcomes d) as [|[|n] l]; intro SS; injection SS as _ <-; reflexivity).
      destruct o; cbn [spec_op op_text] in *; unfold spec_write, spec_write_text, spec_flush, spec_close in E1; rewrite ?F in E1.
      all: try (apply N0; repeat match type of E1 with (if ?x then _ else _) = _ => destruct x | (match ?x with _ => _ end) = _ => destruct x end; first [now apply CALL|injection E1 as _ <-; reflexivity]).
      all: try (destruct (negb _); [injection E1 as _ <-; apply NO; reflexivity|now apply Q]).
      all: try now apply Q.
      destruct (decode _) as [[|y l] [|z m]]; cbn [fst]; rewrite ?F in E1.
      all: try (destruct (negb _); [injection E1 as _ <-; apply NO; reflexivity|now apply Q]).
      injection E1 as _ <-. now apply NO. }
    destruct K as (a1 & c1 & S1 & T1 & K). cbn [map concat]. rewrite as_sent_app, T1. destruct (IH d1 rs d2 (Forall_inv_tail HP) E2) as (a2 & c2 & S2 & Z2 & T2). destruct K as [->|K].
    + exists (a1 ++ a2), c2. rewrite S2, S1, T2, app_nil_r, <- !app_assoc. split; [reflexivity|]. split; [discriminate|reflexivity].
    + exists a1, (c1 ++ as_sent cr (concat (map op_text os))). rewrite S2, (Z2 K), app_nil_r, <- !app_assoc. split; [exact S1|]. split; [discriminate|reflexivity].
Qed.
Theorem sent_beginning : forall cr p o ops rs w, do_ops (new_writer cr false (mksink p o false)) ops = (rs, w) -> Forall plain_op ops ->
  beginning (emitted (inner w)) (p ++ as_sent cr (concat (map op_text ops))).
Proof.
  intros cr p o ops rs w H HP. destruct (ops_refine ops cr _ _ (new_refines cr p o) HP) as [_ R]. rewrite H in R. cbn [snd] in R. destruct (spec_ops cr (new_doc p o) ops) as [bs d'] eqn:E. cbn [snd] in R.
  destruct (spec_ops_prefix cr ops _ bs d' HP E) as (a & c & S & _ & T). exists c. destruct R as (_ & _ & _ & -> & _). rewrite S, T. cbn [sent new_doc]. now rewrite <- app_assoc.
Qed.
Theorem crash_read : forall (bom cr : bool) o ops rs w nel lsps b sc out, do_ops (new_writer cr false (mksink (if bom then [0xFEFF] else []) o false)) ops = (rs, w) -> Forall plain_op ops ->
  let t := concat (map op_text ops) in substring_ok t -> starts_ok t -> scalars t -> Forall (fun c => is_assigned c = true) t ->
  beginning b (encode_all (emitted (inner w))) -> lossy_decoding b (stream_text sc) -> no_push sc -> bom_visible sc -> gives nel lsps sc out ->
  exists q e, beginning q t /\ out = q ++ e /\ In e repairs /\ string_ok out /\ line_terminated out /\ (forall q', beginning q' t -> survives bom cr q' b -> beginning q' q).
Proof.
  intros bom cr o ops rs w nel lsps b sc out H HP t OK SO SC A B D NP BV G. apply (cut_read bom cr nel lsps t b sc out); auto.
  destruct (sent_beginning _ _ _ _ _ _ H HP) as [c E]. fold t in E. destruct B as [d EB]. unfold cut_off, stored. rewrite E, encode_all_app, EB, <- app_assoc. now eexists.
Qed.
