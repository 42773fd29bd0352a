(** Texts shown for debugging. *)
From Coq Require Import NArith Arith List Bool Lia.
From Verif Require Import Base Ucd UcdTables Norm Chars TextTables TextUtils UcdFacts NormFacts CharFacts DocTable SpecText TextFacts PipelineFacts ConcatFacts Utf8 Utf8Facts AsciiProps SpecAscii
  Views SpecViews ViewProps GcbTable StdDebug SpecDebug.
Import ListNotations.
Local Open Scope N_scope.
Arguments N.add : simpl never.
Arguments N.leb : simpl never.
Arguments N.ltb : simpl never.
Arguments N.eqb : simpl never.

(** * Reading back *)
Lemma debug_back1 : forall ext printable ge sq c t, is_scalar c = true -> unescape Outside (escape_debug1 ext printable ge sq c ++ t) = consed c (unescape Outside t).
Proof.
  intros ext printable ge sq c t H. unfold escape_debug1.
  destruct (N.eqb_spec c 0) as [->|N0]; [reflexivity|]. destruct (N.eqb_spec c 0x9) as [->|N1]; [reflexivity|]. destruct (N.eqb_spec c 0xD) as [->|N2]; [reflexivity|]. destruct (N.eqb_spec c 0xA) as [->|N3]; [reflexivity|].
  destruct ((c =? 0x5C) || (c =? 0x22) || (sq && (c =? 0x27))) eqn:E.
  - cbn [app unescape]. change (0x5C =? 0x5C) with true. cbv iota. replace (c =? 0x74) with false by (destruct sq; lia). replace (c =? 0x72) with false by (destruct sq; lia). replace (c =? 0x6E) with false by (destruct sq; lia).
    replace ((c =? 0x27) || (c =? 0x22) || (c =? 0x5C)) with true by (destruct sq; lia). reflexivity.
  - destruct (ge && ext c); [now apply unescape_unicode|]. destruct (printable c); [|now apply unescape_unicode]. cbn [app unescape]. now replace (c =? 0x5C) with false by (destruct sq; lia).
Qed.
Lemma debug_back_all : forall ext printable ge sq s t, scalars s -> unescape Outside (flat_map (escape_debug1 ext printable ge sq) s ++ t) = fold_right consed (unescape Outside t) s.
Proof. intros ext printable ge sq s t H. induction H as [|c s HC H IH]; [reflexivity|]. cbn [flat_map fold_right]. rewrite <- app_assoc, debug_back1 by exact HC. now rewrite IH. Qed.
Lemma consed_all : forall s t, fold_right consed (Some t) s = Some (s ++ t).
Proof. induction s as [|c s IH]; intro t; [reflexivity|]. cbn [fold_right]. now rewrite IH. Qed.
Theorem escape_debug_back : forall ext printable s, scalars s -> unescape Outside (escape_debug ext printable s) = Some s.
Proof.
  intros ext printable s H. destruct H as [|c s HC H]; [reflexivity|]. cbn [escape_debug]. rewrite debug_back1 by exact HC.
  rewrite <- (app_nil_r (flat_map _ s)), debug_back_all by exact H. change (unescape Outside []) with (Some (@nil N)). rewrite consed_all, app_nil_r. reflexivity.
Qed.
Theorem debug_str_back : forall ext printable s, scalars s -> exists e, debug_str ext printable s = [0x22] ++ e ++ [0x22] /\ unescape Outside e = Some s.
Proof.
  intros ext printable s H. exists (flat_map (escape_debug1 ext printable true false) s). split; [reflexivity|].
  rewrite <- (app_nil_r (flat_map _ s)), debug_back_all by exact H. change (unescape Outside []) with (Some (@nil N)). now rewrite consed_all, app_nil_r.
Qed.

(** * The end of a quoted text *)
Definition put (c : N) (o : option (list N * list N)) : option (list N * list N) := match o with Some (a, r) => Some (c :: a, r) | None => None end.
Fixpoint scan (bs : bool) (s : list N) : option (list N * list N) :=
  match s with
  | [] => None
  | c :: t => if bs then put c (scan false t) else if c =? 0x22 then Some ([], t) else put c (scan (c =? 0x5C) t)
  end.
Definition quiet (c : N) : Prop := c <> 0x22 /\ c <> 0x5C.
Lemma scan_quiet : forall l t, Forall quiet l -> scan false (l ++ t) = fold_right put (scan false t) l.
Proof.
  intros l t F. induction F as [|c l [A B] F IH]; [reflexivity|]. cbn [app scan fold_right]. replace (c =? 0x22) with false by lia. replace (c =? 0x5C) with false by lia. now rewrite IH.
Qed.
Lemma unicode_quiet : forall c, exists l, escape_unicode1 c = 0x5C :: 0x75 :: l ++ [0x7D] /\ Forall quiet (l ++ [0x7D]) /\ Forall (fun x => 0x20 <= x <= 0x7E) (0x75 :: l).
Proof.
  intro c. unfold escape_unicode1. exists (0x7B :: map hex_char (hex_digits 6 c [])). split; [reflexivity|].
  pose proof (hex_small 6 c [] (Forall_nil _)) as F. assert (G : Forall (fun x => quiet x /\ 0x20 <= x <= 0x7E) (map hex_char (hex_digits 6 c []))).
  { induction F as [|v vs HV F IH]; constructor; [|exact IH]. unfold quiet. destruct (hex_char_cases v HV); lia. }
  split.
  - apply Forall_app. split; [|repeat constructor; discriminate]. constructor; [split; discriminate|]. eapply Forall_impl; [|exact G]. now intros x [A _].
  - constructor; [lia|]. constructor; [lia|]. eapply Forall_impl; [|exact G]. now intros x [_ A].
Qed.
Lemma put_all : forall l a r, fold_right put (Some (a, r)) l = Some (l ++ a, r).
Proof. induction l as [|c l IH]; intros a r; [reflexivity|]. cbn [fold_right]. now rewrite IH. Qed.
Lemma scan_unicode : forall c t, scan false (escape_unicode1 c ++ t) = fold_right put (scan false t) (escape_unicode1 c).
Proof.
  intros c t. destruct (unicode_quiet c) as (l & -> & Q & _). cbn [app scan fold_right]. change (0x5C =? 0x22) with false. change (0x5C =? 0x5C) with true. cbv iota. now rewrite scan_quiet.
Qed.
Lemma scan_piece : forall ext printable ge sq c t, scan false (escape_debug1 ext printable ge sq c ++ t) = fold_right put (scan false t) (escape_debug1 ext printable ge sq c).
Proof.
  intros ext printable ge sq c t. unfold escape_debug1.
  destruct (c =? 0); [reflexivity|]. destruct (c =? 0x9); [reflexivity|]. destruct (c =? 0xD); [reflexivity|]. destruct (c =? 0xA); [reflexivity|].
  destruct ((c =? 0x5C) || (c =? 0x22) || (sq && (c =? 0x27))) eqn:E; [reflexivity|].
  destruct (ge && ext c); [apply scan_unicode|]. destruct (printable c); [|apply scan_unicode]. cbn [app scan fold_right]. replace (c =? 0x22) with false by lia. now replace (c =? 0x5C) with false by lia.
Qed.
Lemma scan_body : forall ext printable ge sq s r, scan false (flat_map (escape_debug1 ext printable ge sq) s ++ 0x22 :: r) = Some (flat_map (escape_debug1 ext printable ge sq) s, r).
Proof.
  intros ext printable ge sq s r. induction s as [|c s IH]; [reflexivity|]. cbn [flat_map]. rewrite <- app_assoc, scan_piece, IH. apply put_all.
Qed.
Theorem debug_str_delimited : forall ext printable s t r r', scalars s -> scalars t -> debug_str ext printable s ++ r = debug_str ext printable t ++ r' -> s = t /\ r = r'.
Proof.
  intros ext printable s t r r' HS HT E. unfold debug_str in E. cbn [app] in E. injection E as E. rewrite <- !app_assoc in E. cbn [app] in E.
  apply (f_equal (scan false)) in E. rewrite !scan_body in E. injection E as E ->. split; [|reflexivity].
  apply (f_equal (unescape Outside)) in E. rewrite <- (app_nil_r (flat_map _ s)), <- (app_nil_r (flat_map _ t)), !debug_back_all in E by assumption.
  change (unescape Outside []) with (Some (@nil N)) in E. rewrite !consed_all, !app_nil_r in E. now injection E.
Qed.

(** * Validity *)
Lemma boring_ends : Forall boring [0x5C; 0x30; 0x22; 0x27; 0x7D; 0x28; 0x29].
Proof. repeat (apply Forall_cons; [apply boring_b_spec; vm_compute; reflexivity|]). constructor. Qed.
Lemma boring_bs : boring 0x5C. Proof. exact (Forall_inv boring_ends). Qed.
Definition printable_ascii (x : N) : Prop := 0x20 <= x <= 0x7E.
Lemma ascii_nfc_ss : forall l, Forall printable_ascii l -> nfc_ss l.
Proof.
  intros l F. assert (OK : string_ok l) by (apply plain_ok; eapply Forall_impl; [|exact F]; intros c HC; right; right; exact HC).
  destruct OK as (OK & _). apply substr_spec, substr_ok_iff in OK. apply OK.
Qed.
(** the pieces: a character as it is, or a backslash and printable characters *)
Lemma piece_cases : forall ext printable ge sq c, escape_debug1 ext printable ge sq c = [c] /\ c <> 0 /\ c <> 0x9 /\ c <> 0xA /\ c <> 0xD /\ c <> 0x5C /\ c <> 0x22 /\ (ge = false \/ ext c = false) /\ printable c = true \/
  exists m x, escape_debug1 ext printable ge sq c = 0x5C :: m ++ [x] /\ Forall printable_ascii m /\ printable_ascii x /\ (boring x \/ (letter_of c x /\ m = [])).
Proof.
  intros ext printable ge sq c. unfold escape_debug1.
  assert (B : forall x, In x [0x30; 0x22; 0x27; 0x5C; 0x7D] -> boring x).
  { intros x [<-|[<-|[<-|[<-|[<-|[]]]]]]; apply (proj1 (Forall_forall _ _) boring_ends); cbn; auto 10. }
  assert (U : exists m x, escape_unicode1 c = 0x5C :: m ++ [x] /\ Forall printable_ascii m /\ printable_ascii x /\ (boring x \/ (letter_of c x /\ m = []))).
  { destruct (unicode_quiet c) as (l & -> & _ & F). exists (0x75 :: l), 0x7D. split; [reflexivity|]. split; [exact F|]. split; [unfold printable_ascii; lia|]. left. apply B. cbn; auto 10. }
  destruct (N.eqb_spec c 0) as [->|N0]; [right; exists [], 0x30; split; [reflexivity|]; split; [constructor|]; split; [unfold printable_ascii; lia|]; left; apply B; cbn; auto|].
  destruct (N.eqb_spec c 0x9) as [->|N1]; [right; exists [], 0x74; split; [reflexivity|]; split; [constructor|]; split; [unfold printable_ascii; lia|]; right; split; [|reflexivity]; unfold letter_of; cbn; auto|].
  destruct (N.eqb_spec c 0xD) as [->|N2]; [right; exists [], 0x72; split; [reflexivity|]; split; [constructor|]; split; [unfold printable_ascii; lia|]; right; split; [|reflexivity]; unfold letter_of; cbn; auto|].
  destruct (N.eqb_spec c 0xA) as [->|N3]; [right; exists [], 0x6E; split; [reflexivity|]; split; [constructor|]; split; [unfold printable_ascii; lia|]; right; split; [|reflexivity]; unfold letter_of; cbn; auto|].
  destruct ((c =? 0x5C) || (c =? 0x22) || (sq && (c =? 0x27))) eqn:E.
  - right. exists [], c. split; [reflexivity|]. split; [constructor|]. split; [unfold printable_ascii; destruct sq; lia|]. left. apply B. cbn.
    assert (D : c = 0x5C \/ c = 0x22 \/ c = 0x27) by (destruct sq; lia). destruct D as [->|[->| ->]]; auto.
  - destruct ge eqn:G; cbn [andb].
    + destruct (ext c) eqn:X; [right; exact U|]. destruct (printable c) eqn:P; [left|right; exact U]. repeat split; auto; destruct sq; lia.
    + destruct (printable c) eqn:P; [left|right; exact U]. repeat split; auto; destruct sq; lia.
Qed.
Transparent ccc kd compose.
Lemma kd_ascii : forall x, x <= 0x7F -> kd x = [x].
Proof. intros x X. unfold kd. replace (x <=? 127) with true by lia. reflexivity. Qed.
Lemma letter_facts : forall c x, letter_of c x -> x <= 0x7F /\ ccc x = 0.
Proof. intros c x [H|[H|[H|[]]]]; injection H as <- <-; (split; [lia|vm_compute; reflexivity]). Qed.
Global Opaque ccc kd compose.
Section body.
Variables ext printable : N -> bool.
Variables ge sq : bool.
Notation piece := (escape_debug1 ext printable ge sq).
Notation body := (flat_map piece).
Definition shows (c : N) : bool := match piece c with [x] => x =? c | _ => false end.
Lemma piece_shows : forall c, shows c = true -> piece c = [c].
Proof. intros c H. unfold shows in H. destruct (piece c) as [|x [|y l]]; try discriminate. apply N.eqb_eq in H. now subst. Qed.
Lemma piece_hides : forall c, shows c = false -> exists m x, piece c = 0x5C :: m ++ [x] /\ Forall printable_ascii m /\ printable_ascii x /\ (boring x \/ (letter_of c x /\ m = [])).
Proof. intros c H. destruct (piece_cases ext printable ge sq c) as [(E & _)|K]; [|exact K]. unfold shows in H. rewrite E, N.eqb_refl in H. discriminate. Qed.
Lemma letter_hides : forall c x, letter_of c x -> piece c = [0x5C; x].
Proof. intros c x [H|[H|[H|[]]]]; injection H as <- <-; reflexivity. Qed.
Lemma shown_prefix : forall f s, exists b, s = shown f s ++ b.
Proof. intros f s. induction s as [|c s [b IH]]; [now exists []|]. cbn [shown]. destruct (f c); [exists b; cbn [app]; now rewrite <- IH|now exists (c :: s)]. Qed.
Lemma body_split : forall s, exists rest, body s = shown shows s ++ rest /\ (rest = [] \/ exists u, rest = 0x5C :: u).
Proof.
  induction s as [|c s (rest & E & R)]; [exists []; auto|]. cbn [flat_map shown]. destruct (shows c) eqn:H.
  - exists rest. rewrite (piece_shows c H), E. auto.
  - destruct (piece_hides c H) as (m & x & -> & _). exists ((0x5C :: m ++ [x]) ++ body s). split; [reflexivity|]. right. cbn [app]. eauto.
Qed.
Definition apart (s : list N) : Prop := forall a c x b, s = a ++ c :: b -> letter_of c x -> nfc_text (x :: shown shows b).
Lemma letter_stream_safe : forall x l, x <= 0x7F -> ccc x = 0 -> stream_safe_text l -> stream_safe_text (x :: l).
Proof.
  intros x l X C H a run b E F. cbn [flat_map] in E. pose proof (kd_ascii x X) as K.
  rewrite K in E. cbn [app] in E. destruct a as [|y a].
  - destruct run as [|r run]; [cbn; lia|]. cbn [app] in E. injection E as <- _. apply Forall_inv in F. contradiction.
  - cbn [app] in E. injection E as _ E. exact (H a run b E F).
Qed.
Theorem body_nfc : forall s, nfc_ss s -> apart s -> nfc_ss (body s).
Proof.
  induction s as [|c s IH]; intros NS AP; [exact NS|]. pose proof (proj2 (nfc_ss_app [c] s NS)) as NT. assert (AT : apart s) by (intros a d x b E; apply (AP (c :: a) d x b); now rewrite E).
  specialize (IH NT AT). destruct (body_split s) as (rest & E & R).
  assert (JOIN : forall y, nfc_ss (y :: shown shows s) -> nfc_ss (y :: body s)).
  { intros y Y. rewrite E in *. destruct R as [->|[u ->]]; [now rewrite app_nil_r|]. change (y :: shown shows s ++ 0x5C :: u) with ((y :: shown shows s) ++ 0x5C :: u).
    apply nfc_ss_split; [exact boring_bs|exact Y|]. apply nfc_ss_app in IH. destruct IH as [_ IH]. exact (proj2 (nfc_ss_app [0x5C] u IH)). }
  cbn [flat_map]. destruct (shows c) eqn:H.
  - rewrite (piece_shows c H). cbn [app]. apply JOIN. destruct (shown_prefix shows s) as [b EB]. rewrite EB in NS. exact (proj1 (nfc_ss_app (c :: shown shows s) b NS)).
  - destruct (piece_hides c H) as (m & x & -> & FM & FX & [B|[L ->]]).
    + cbn [app]. rewrite <- app_assoc. cbn [app]. apply (nfc_ss_split []); [exact boring_bs|split; reflexivity|]. apply nfc_ss_split; [exact B|now apply ascii_nfc_ss|exact IH].
    + cbn [app]. apply (nfc_ss_split []); [exact boring_bs|split; reflexivity|]. apply JOIN. split; [exact (AP [] c x s eq_refl L)|].
      destruct (letter_facts _ _ L) as [X C]. apply stream_safe_spec, letter_stream_safe; auto. apply stream_safe_spec. destruct (shown_prefix shows s) as [b EB]. rewrite EB in NT. exact (proj2 (proj1 (nfc_ss_app _ _ NT))).
Qed.
Theorem body_apart : forall s, nfc_ss (body s) -> apart s.
Proof.
  intros s H a c x b -> L. rewrite flat_map_app in H. apply nfc_ss_app in H. destruct H as [_ H]. cbn [flat_map] in H. rewrite (letter_hides c x L) in H. destruct (body_split b) as (rest & E & _). rewrite E in H.
  change ([0x5C; x] ++ shown shows b ++ rest) with ([0x5C] ++ (x :: shown shows b) ++ rest) in H. apply nfc_ss_app in H. destruct H as [_ H]. apply nfc_ss_app in H. exact (proj1 (proj1 H)).
Qed.
Lemma piece_allowed : forall c, allowed c -> Forall allowed (piece c).
Proof.
  intros c A. destruct (shows c) eqn:H; [rewrite (piece_shows c H); auto|]. destruct (piece_hides c H) as (m & x & -> & FM & FX & _).
  assert (P : Forall printable_ascii (0x5C :: m ++ [x])). { constructor; [unfold printable_ascii; lia|]. apply Forall_app. auto. }
  assert (OK : string_ok (0x5C :: m ++ [x])) by (apply plain_ok; eapply Forall_impl; [|exact P]; intros y HY; right; right; exact HY). apply OK.
Qed.
Lemma body_allowed : forall s, Forall allowed s -> Forall allowed (body s).
Proof. intros s F. induction F as [|c s A F IH]; [constructor|]. cbn [flat_map]. apply Forall_app. split; [now apply piece_allowed|exact IH]. Qed.
Lemma sub_ok_iff : forall s, substring_ok s <-> nfc_ss s /\ Forall allowed s.
Proof. intro s. unfold substring_ok, nfc_ss, nfc_text. rewrite stream_safe_spec. tauto. Qed.
Theorem body_valid : forall s, substring_ok s -> substring_ok (body s) <-> apart s.
Proof.
  intros s H. apply sub_ok_iff in H. destruct H as [N F]. rewrite sub_ok_iff. split; [intros [K _]; now apply body_apart|]. intro A. split; [now apply body_nfc|now apply body_allowed].
Qed.
Lemma end_ascii : forall x, printable_ascii x -> is_basic_text_end x = true.
Proof.
  intros x H. assert (OK : string_ok [x]) by (apply plain_ok; constructor; [right; right; exact H|constructor]). destruct OK as (_ & _ & E). exact (E [] x eq_refl).
Qed.
Lemma start_ascii : forall x, printable_ascii x -> is_basic_text_start x = true.
Proof.
  intros x H. assert (OK : string_ok [x]) by (apply plain_ok; constructor; [right; right; exact H|constructor]). destruct OK as (_ & S & _). exact (S x [] eq_refl).
Qed.
Lemma body_ends : forall s, ends_ok s -> ends_ok (body s).
Proof.
  intros s H. destruct s as [|c s _] using rev_ind; [exact H|]. intros t y E. rewrite flat_map_app in E. cbn [flat_map] in E. rewrite app_nil_r in E. destruct (shows c) eqn:SH.
  - rewrite (piece_shows c SH) in E. apply app_inj_tail in E. destruct E as [_ <-]. exact (H s c eq_refl).
  - destruct (piece_hides c SH) as (m & x & EP & _ & PX & _). rewrite EP in E. replace (body s ++ 0x5C :: m ++ [x]) with ((body s ++ 0x5C :: m) ++ [x]) in E by (rewrite <- app_assoc; reflexivity).
    apply app_inj_tail in E. destruct E as [_ <-]. now apply end_ascii.
Qed.
Lemma piece_starts : forall c u, is_basic_text_start c = true -> starts_ok (piece c ++ u).
Proof.
  intros c u H d t E. destruct (shows c) eqn:SH; [rewrite (piece_shows c SH) in E; injection E as <- _; exact H|].
  destruct (piece_hides c SH) as (m & x & EP & _). rewrite EP in E. cbn [app] in E. injection E as <- _. apply start_ascii. unfold printable_ascii. lia.
Qed.
End body.

Lemma shown_ext : forall f g s, (forall c, In c s -> f c = g c) -> shown f s = shown g s.
Proof. intros f g s. induction s as [|c s IH]; intro H; [reflexivity|]. cbn [shown]. rewrite (H c (or_introl eq_refl)), IH; [reflexivity|]. intros d D. apply H. now right. Qed.
Lemma shows_as_is : forall ext printable c, shows ext printable false true c = as_is printable c.
Proof.
  intros ext printable c. unfold shows, as_is, escape_debug1. cbn [existsb andb].
  destruct (N.eqb_spec c 0) as [->|N0]; [reflexivity|]. destruct (N.eqb_spec c 0x9) as [->|N1]; [reflexivity|]. destruct (N.eqb_spec c 0xD) as [->|N2]; [reflexivity|]. destruct (N.eqb_spec c 0xA) as [->|N3]; [reflexivity|].
  cbn [orb]. destruct (N.eqb_spec c 0x5C) as [->|N4]; [reflexivity|]. destruct (N.eqb_spec c 0x22) as [->|N5]; [reflexivity|]. destruct (N.eqb_spec c 0x27) as [->|N6]; [reflexivity|]. cbn [orb negb andb].
  destruct (printable c); [apply N.eqb_refl|]. destruct (unicode_quiet c) as (l & -> & _). reflexivity.
Qed.
Lemma apart_letters : forall ext printable s, apart ext printable false true s <-> letters_apart printable s.
Proof.
  intros ext printable s. unfold apart, letters_apart. split; intros H a c x b E L; specialize (H a c x b E L).
  - now rewrite <- (shown_ext _ _ b (fun d _ => shows_as_is ext printable d)).
  - now rewrite (shown_ext _ _ b (fun d _ => shows_as_is ext printable d)).
Qed.
Lemma first_piece : forall ext printable c, escape_debug1 ext printable true true c = escape_debug1 ext printable false true c \/
  (escape_debug1 ext printable true true c = escape_unicode1 c /\ shows ext printable false true c = true).
Proof.
  intros ext printable c. unfold shows, escape_debug1. destruct (c =? 0); auto. destruct (c =? 9); auto. destruct (c =? 13); auto. destruct (c =? 10); auto. destruct (_ || _); auto. cbn [andb].
  destruct (ext c); auto. destruct (printable c); auto. right. split; [reflexivity|apply N.eqb_refl].
Qed.
Theorem escape_debug_substr : forall ext printable s, substring_ok s -> substring_ok (escape_debug ext printable s) <-> letters_apart printable s.
Proof.
  intros ext printable s SB. rewrite <- (apart_letters ext). destruct s as [|c t].
  { split; [|intros _; exact SB]. intros _ a c x b E. destruct a; discriminate. }
  cbn [escape_debug]. pose proof (first_piece ext printable c) as D. set (rest := flat_map (escape_debug1 ext printable false true) t) in *. split.
  - intro V. destruct D as [D|[D SH]].
    + rewrite D in V. exact (proj1 (body_valid ext printable false true (c :: t) SB) V).
    + rewrite D in V. apply sub_ok_iff in V. destruct V as [V _]. apply nfc_ss_app in V. destruct V as [_ V]. apply body_apart in V. intros a d x b E L. destruct a as [|a0 a]; injection E as -> E; [|exact (V a d x b E L)].
      exfalso. unfold shows in SH. rewrite (letter_hides ext printable false true _ _ L) in SH. discriminate.
  - intro A. destruct D as [D|[D SH]].
    + rewrite D. exact (proj2 (body_valid ext printable false true (c :: t) SB) A).
    + apply sub_ok_iff in SB. destruct SB as [NS FA]. assert (AT : apart ext printable false true t) by (intros a d x b E L; apply (A (c :: a) d x b); [now rewrite E|exact L]).
      pose proof (body_nfc ext printable false true t (proj2 (nfc_ss_app [c] t NS)) AT) as NR. fold rest in NR. apply sub_ok_iff. split.
      * rewrite D. destruct (unicode_quiet c) as (l & -> & _ & F). replace ((0x5C :: 0x75 :: l ++ [0x7D]) ++ rest) with ((0x5C :: 0x75 :: l) ++ 0x7D :: rest) by (cbn [app]; now rewrite <- app_assoc).
        apply nfc_ss_split; [apply (proj1 (Forall_forall _ _) boring_ends); cbn; auto 10| |exact NR]. apply ascii_nfc_ss. constructor; [unfold printable_ascii; lia|exact F].
      * apply Forall_app. split; [apply piece_allowed; exact (Forall_inv FA)|]. apply body_allowed. exact (Forall_inv_tail FA).
Qed.
Lemma escape_debug_ends : forall ext printable s, ends_ok s -> ends_ok (escape_debug ext printable s).
Proof.
  intros ext printable [|c t] EN; [exact EN|]. cbn [escape_debug]. set (rest := flat_map (escape_debug1 ext printable false true) t). destruct t as [|d t'].
  - subst rest. cbn [flat_map]. pose proof (body_ends ext printable true true [c] EN) as K. cbn [flat_map] in K. exact K.
  - assert (ET : ends_ok (d :: t')) by (intros u y E; apply (EN (c :: u) y); cbn; now rewrite E). pose proof (body_ends ext printable false true _ ET) as K. fold rest in K.
    intros u y E. destruct rest as [|r0 rest'] eqn:ER.
    + exfalso. subst rest. cbn [flat_map] in ER. apply app_eq_nil in ER. destruct ER as [ER _]. destruct (piece_cases ext printable false true d) as [(Q & _)|(m & x & Q & _)]; rewrite Q in ER; discriminate.
    + destruct (exists_last (l := r0 :: rest') ltac:(discriminate)) as (v & z & EV). rewrite EV in *. rewrite app_assoc in E. apply app_inj_tail in E. destruct E as [_ <-]. exact (K v z eq_refl).
Qed.
Theorem escape_debug_valid : forall ext printable s, string_ok s -> string_ok (escape_debug ext printable s) <-> letters_apart printable s.
Proof.
  intros ext printable s (SB & ST & EN). rewrite <- (escape_debug_substr ext printable s SB). split; [intros (V & _); exact V|]. intro V. split; [exact V|]. split; [|now apply escape_debug_ends].
  destruct s as [|c t]; [exact ST|]. cbn [escape_debug]. apply piece_starts. exact (ST c t eq_refl).
Qed.
(** An accent is not the first character. *)
Theorem escape_debug_start : forall ext printable s c t, ext 0x5C = false -> escape_debug ext printable s = c :: t -> ext c = false.
Proof.
  intros ext printable [|d s] c t B E; [discriminate|]. cbn [escape_debug] in E. destruct (piece_cases ext printable true true d) as [(Q & _ & _ & _ & _ & _ & _ & X & _)|(m & x & Q & _)]; rewrite Q in E; cbn [app] in E; injection E as <- _; [|exact B].
  destruct X as [X|X]; [discriminate|exact X].
Qed.

(** * The letters and what follows them *)
Lemma rc_front : forall s k buf l, (forall d, ccc d = 0 -> compose k d = None) -> (forall a d b, s = a ++ d :: b -> Forall (fun y => ccc y <> 0) a -> compose k d = None) -> (l = None -> buf = []) ->
  rc k buf l s = k :: buf ++ recomp s.
Proof.
  induction s as [|ch t IH]; intros k buf l H0 H1 HL; cbn [rc recomp]; [now rewrite app_nil_r|]. rewrite (H1 [] ch t eq_refl (Forall_nil _)).
  assert (H2 : ccc ch <> 0 -> forall a d b, t = a ++ d :: b -> Forall (fun y => ccc y <> 0) a -> compose k d = None) by (intros C a d b E F; apply (H1 (ch :: a) d b); [now rewrite E|now constructor]).
  destruct l as [lc|].
  - destruct (ccc ch =? 0) eqn:E.
    + assert (ccc ch <=? lc = true) as -> by lia. reflexivity.
    + destruct (ccc ch <=? lc); (rewrite IH; [rewrite <- app_assoc; reflexivity|exact H0|apply H2; lia|discriminate]).
  - destruct (ccc ch =? 0) eqn:E.
    + rewrite HL by reflexivity. reflexivity.
    + rewrite IH; [rewrite <- app_assoc; reflexivity|exact H0|apply H2; lia|discriminate].
Qed.
Lemma recomp_front : forall a b, Forall (fun y => ccc y <> 0) a -> recomp (a ++ b) = a ++ recomp b.
Proof. intros a b F. induction F as [|y a H F IH]; [reflexivity|]. cbn [app recomp]. replace (ccc y =? 0) with false by lia. now rewrite IH. Qed.

Transparent ccc cd compose.
Definition letter (k : N) : bool := (k =? 0x74) || (k =? 0x6E) || (k =? 0x72).
Definition letter_seconds (a b r : N) : bool := negb (letter a) || (negb (ccc b =? 0) && in_ranges b gcb_extend).
Lemma chk_letter_seconds : tall (fun a l => forallb (fun br => letter_seconds a (fst br) (snd br)) l) trie_comp = true.
Proof. vm_compute. reflexivity. Qed.
Lemma cd_ascii : forall x, x <= 0x7F -> cd x = [x].
Proof. intros x X. unfold cd. replace (x <=? 127) with true by lia. reflexivity. Qed.
Global Opaque ccc cd compose.
Lemma letter_compose : forall c x d, letter_of c x -> compose x d <> None -> ccc d <> 0 /\ in_ranges d gcb_extend = true.
Proof.
  intros c x d L H. destruct (compose x d) as [r|] eqn:E; [|congruence]. assert (K : letter x = true /\ x <= 0x7F) by (destruct L as [K|[K|[K|[]]]]; injection K as <- <-; split; try reflexivity; lia).
  destruct K as [K X]. destruct (compose_inv _ _ _ E) as [(A & _)|[(A & _)|A]]; [unfold in_range, L_BASE in A; lia|unfold in_range, S_BASE in A; lia|].
  apply (comp_lift letter_seconds chk_letter_seconds) in A. unfold letter_seconds in A. rewrite K in A. cbn [negb orb] in A. apply andb_prop in A. destruct A as [A B]. split; [|exact B]. apply negb_true_iff in A. now apply N.eqb_neq.
Qed.
Lemma letter_alone : forall c x l, letter_of c x -> nfc l = l -> Forall (fun d => compose x d = None) l -> nfc (x :: l) = x :: l.
Proof.
  intros c x l L HN F. destruct (letter_facts _ _ L) as [X C]. unfold nfc, nfd in *. cbn [flat_map]. rewrite (cd_ascii x X). cbn [app]. rewrite order_cons, ins_starter by exact C. rewrite recomp_starter by exact C.
  rewrite rc_front; [cbn [app]; now rewrite HN| | |auto].
  - intros d D. destruct (compose x d) eqn:E; [|reflexivity]. exfalso. apply (proj1 (letter_compose c x d L ltac:(congruence))). exact D.
  - intros a d b E FA. destruct (N.eq_dec (ccc d) 0) as [D|D].
    + destruct (compose x d) eqn:E2; [|reflexivity]. exfalso. apply (proj1 (letter_compose c x d L ltac:(congruence))). exact D.
    + rewrite E in HN. replace (a ++ d :: b) with ((a ++ [d]) ++ b) in HN by (rewrite <- app_assoc; reflexivity). rewrite recomp_front in HN by (apply Forall_app; auto).
      rewrite <- HN in F. rewrite <- app_assoc in F. apply Forall_app in F. destruct F as [_ F]. exact (Forall_inv F).
Qed.
Lemma shown_forall : forall f s, Forall (fun c => f c = true) (shown f s).
Proof. intros f s. induction s as [|c s IH]; [constructor|]. cbn [shown]. destruct (f c) eqn:E; constructor; auto. Qed.
Lemma slice_nfc : forall a b f, nfc_ss (a ++ b) -> nfc (shown f b) = shown f b.
Proof. intros a b f H. apply nfc_ss_app in H. destruct H as [_ H]. destruct (shown_prefix f b) as [r E]. rewrite E in H. apply nfc_ss_app in H. apply H. Qed.
Lemma debug_apart : forall ext printable s, accents_extend ext -> nfc_ss s -> apart ext printable true false s.
Proof.
  intros ext printable s HE NS a c x b -> L. apply (letter_alone c x _ L).
  - replace (a ++ c :: b) with ((a ++ [c]) ++ b) in NS by (rewrite <- app_assoc; reflexivity). exact (slice_nfc _ b _ NS).
  - eapply Forall_impl; [|apply shown_forall]. cbn beta. intros d D. destruct (compose x d) eqn:E; [|reflexivity]. exfalso.
    assert (K : ext d = true) by (apply (HE c x d L); congruence). apply piece_shows in D.
    destruct (piece_cases ext printable true false d) as [(_ & _ & _ & _ & _ & _ & _ & [Z|Z] & _)|(m & y & Z & _)]; [discriminate|congruence|]. rewrite Z in D. destruct m; discriminate.
Qed.
Lemma quoted_ok : forall a b s, boring a -> boring b -> printable_ascii a -> printable_ascii b -> substring_ok s -> string_ok (a :: s ++ [b]).
Proof.
  intros a b s BA BB PA PB H. apply sub_ok_iff in H. destruct H as [NS F]. split; [apply sub_ok_iff; split|split].
  - apply (nfc_ss_split []); [exact BA|split; reflexivity|]. apply (nfc_ss_split s b []); [exact BB|exact NS|split; reflexivity].
  - assert (A : forall y, printable_ascii y -> allowed y).
    { intros y Y. assert (OK : string_ok [y]) by (apply plain_ok; constructor; [right; right; exact Y|constructor]). destruct OK as ((_ & _ & OK) & _). exact (Forall_inv OK). }
    constructor; [auto|]. apply Forall_app. auto.
  - intros d t E. injection E as <- _. now apply start_ascii.
  - intros t d E. change (a :: s ++ [b]) with ((a :: s) ++ [b]) in E. apply app_inj_tail in E. destruct E as [_ <-]. now apply end_ascii.
Qed.
Theorem debug_str_exact : forall ext printable s, substring_ok s -> string_ok (debug_str ext printable s) <-> apart ext printable true false s.
Proof.
  intros ext printable s H. assert (Q : boring 0x22) by (apply (proj1 (Forall_forall _ _) boring_ends); cbn; auto). rewrite <- (body_valid ext printable true false s H). split.
  - intros (V & _). apply sub_ok_iff in V. destruct V as [V F]. unfold debug_str in *. apply sub_ok_iff. split.
    + change (0x22 :: flat_map (escape_debug1 ext printable true false) s ++ [0x22]) with ([0x22] ++ flat_map (escape_debug1 ext printable true false) s ++ [0x22]) in V. apply nfc_ss_app in V. destruct V as [_ V]. apply nfc_ss_app in V. apply V.
    + apply Forall_inv_tail, Forall_app in F. apply F.
  - intro V. apply quoted_ok; auto; unfold printable_ascii; lia.
Qed.
Theorem debug_str_valid : forall ext printable s, accents_extend ext -> substring_ok s -> string_ok (debug_str ext printable s).
Proof. intros ext printable s HE H. apply debug_str_exact; [exact H|]. apply debug_apart; [exact HE|]. apply sub_ok_iff in H. apply H. Qed.
Theorem debug_text_valid : forall name ext printable s, accents_extend ext -> Forall printable_ascii name -> substring_ok s -> string_ok (debug_text name ext printable s).
Proof.
  intros name ext printable s HE FN H. assert (B : forall x, In x [0x28; 0x29] -> boring x) by (intros x [<-|[<-|[]]]; apply (proj1 (Forall_forall _ _) boring_ends); cbn; auto 10).
  assert (Q : string_ok (0x28 :: debug_str ext printable s ++ [0x29])).
  { apply quoted_ok; try (apply B; cbn; auto); try (unfold printable_ascii; lia). exact (proj1 (debug_str_valid ext printable s HE H)). }
  unfold debug_text. destruct Q as (V & ST & EN). apply sub_ok_iff in V. destruct V as [V F]. split; [apply sub_ok_iff; split|split].
  - apply nfc_ss_split; [apply B; cbn; auto|now apply ascii_nfc_ss|]. exact (proj2 (nfc_ss_app [0x28] _ V)).
  - apply Forall_app. split; [|exact F]. assert (OK : string_ok name) by (apply plain_ok; eapply Forall_impl; [|exact FN]; intros y HY; right; right; exact HY). apply OK.
  - destruct name as [|n0 name]; [exact ST|]. intros d t E. injection E as <- _. apply start_ascii. exact (Forall_inv FN).
  - intros t d E. change (0x28 :: debug_str ext printable s ++ [0x29]) with ((0x28 :: debug_str ext printable s) ++ [0x29]) in E. rewrite app_assoc in E. apply app_inj_tail in E. destruct E as [_ <-]. apply end_ascii. unfold printable_ascii. lia.
Qed.
(** the characters with the property Grapheme_Cluster_Break=Extend *)
Theorem extend_accents : accents_extend (fun c => in_ranges c gcb_extend).
Proof. intros c x d L H. exact (proj2 (letter_compose c x d L H)). Qed.
(** A text in which what follows tabs and line ends may begin a text. *)
Theorem start_after_letter : forall printable s, substring_ok s -> (forall a c x b, s = a ++ c :: b -> letter_of c x -> starts_ok b) -> letters_apart printable s.
Proof.
  intros printable s SB H a c x b E L. specialize (H a c x b E L). subst s. apply sub_ok_iff in SB. destruct SB as [NS _].
  assert (NB : nfc_ss (shown (as_is printable) b)).
  { replace (a ++ c :: b) with ((a ++ [c]) ++ b) in NS by (rewrite <- app_assoc; reflexivity). apply nfc_ss_app in NS. destruct NS as [_ NS]. destruct (shown_prefix (as_is printable) b) as [r E]. rewrite E in NS. apply nfc_ss_app in NS. apply NS. }
  assert (SS : starts_ok (shown (as_is printable) b)).
  { intros d t E. destruct b as [|d' b]; [discriminate|]. cbn [shown] in E. destruct (as_is printable d'); [|discriminate]. injection E as <- _. exact (H d' b eq_refl). }
  assert (K : nfc_ss ([x] ++ shown (as_is printable) b)).
  { apply nfc_ss_seam; [exact SS| |exact NB|].
    - apply ascii_nfc_ss. constructor; [|constructor]. unfold printable_ascii. destruct L as [K|[K|[K|[]]]]; injection K as <- <-; lia.
    - intros t y d u E1 E2. destruct t as [|? [|? ?]]; try discriminate. injection E1 as <-. destruct (compose x d) eqn:EC; [|reflexivity]. exfalso.
      apply (proj1 (letter_compose c x d L ltac:(congruence))). apply start_ccc. exact (SS d u E2). }
  exact (proj1 K).
Qed.
(** All on one line. *)
Lemma piece_controls : forall ext printable ge sq c, allowed c -> Forall (fun x => 0x20 <= x) (escape_debug1 ext printable ge sq c).
Proof.
  intros ext printable ge sq c A. destruct (piece_cases ext printable ge sq c) as [(E & N0 & N1 & N2 & N3 & _)|(m & x & E & FM & FX & _)]; rewrite E.
  - constructor; [|constructor]. destruct (N.lt_ge_cases c 0x20) as [L|L]; [exfalso|exact L]. assert (P : ascii c) by (unfold ascii; lia). pose proof (proj1 (ascii_allowed c P) A) as K. unfold plain_ascii in K. lia.
  - constructor; [lia|]. apply Forall_app. split; [eapply Forall_impl; [|exact FM]; intros y Y; apply Y|]. constructor; [apply FX|constructor].
Qed.
Theorem debug_one_line : forall ext printable s, Forall allowed s -> Forall (fun x => 0x20 <= x) (escape_debug ext printable s) /\ Forall (fun x => 0x20 <= x) (debug_str ext printable s).
Proof.
  intros ext printable s F. assert (B : forall ge sq t, Forall allowed t -> Forall (fun x => 0x20 <= x) (flat_map (escape_debug1 ext printable ge sq) t)).
  { intros ge sq t FT. induction FT as [|c t A FT IH]; [constructor|]. cbn [flat_map]. apply Forall_app. split; [now apply piece_controls|exact IH]. }
  split.
  - destruct F as [|c t A F]; [constructor|]. cbn [escape_debug]. apply Forall_app. split; [now apply piece_controls|now apply B].
  - constructor; [lia|]. apply Forall_app. split; [now apply B|]. constructor; [lia|constructor].
Qed.
