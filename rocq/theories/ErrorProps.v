(** Error messages. *)
From Coq Require Import NArith Arith String List Bool Lia ZifyBool ZifyNat ZifyN.
From Verif Require Import Base Ucd Chars CharFacts TextUtils DocTable SpecText DocFacts Utf8 Output NormFacts PipelineFacts SpecWrite WriteFacts DocErrors Errors SpecErrors.
Import ListNotations.
Local Open Scope N_scope.
Arguments N.add : simpl never.
Arguments N.leb : simpl never.
Arguments N.ltb : simpl never.
Arguments N.eqb : simpl never.

Definition message_eq_dec : forall a b : message, {a = b} + {a <> b}.
Proof. decide equality; [apply (list_eq_dec (list_eq_dec N.eq_dec))|apply string_dec]. Defined.
Definition saysb (c : N) (doc m : message) : bool :=
  if message_eq_dec m doc then true
  else match doc with
       | Message t [] => if message_eq_dec m (Message (t ++ ": _") [[c]]) then true else false
       | _ => false
       end.
Lemma saysb_spec : forall c doc m, saysb c doc m = true <-> says c doc m.
Proof.
  intros c doc m. unfold saysb, says. destruct (message_eq_dec m doc) as [E|NE]; [tauto|]. destruct doc as [t [|a l]].
  - destruct (message_eq_dec m (Message (t ++ ": _") [[c]])) as [E|NE2]; split; try tauto; try discriminate; [intros _; right; eauto|].
    intros [H|(u & H1 & H2)]; [contradiction|]. injection H1 as <-. contradiction.
  - split; [discriminate|]. intros [H|(u & H1 & _)]; [contradiction|discriminate].
Qed.
Definition message_check (c : N) : bool :=
  match doc_error c, check_basic_text_char c with
  | Some m, Some e => Bool.eqb (saysb c m (display e)) (negb (in_ranges c other_message))
  | _, _ => c =? 0x1B
  end.
Lemma chk_messages : ranges_all message_check (map fst doc_error_rows) = true.
Proof. vm_compute. reflexivity. Qed.
Lemma doc_error_range : forall c m, doc_error c = Some m -> in_ranges c (map fst doc_error_rows) = true.
Proof.
  intros c m H. unfold doc_error in H. destruct (find _ _) as [r|] eqn:E; [|discriminate]. apply find_some in E. destruct E as [E1 E2].
  unfold in_ranges. apply existsb_exists. exists (fst r). split; [now apply in_map|exact E2].
Qed.
Theorem documented_message : forall c m, doc_error c = Some m -> c <> 0x1B ->
  exists e, check_basic_text_char c = Some e /\ (says c m (display e) <-> in_ranges c other_message = false).
Proof.
  intros c m H NE. pose proof (ranges_all_spec _ _ _ chk_messages (doc_error_range _ _ H)) as K. unfold message_check in K. rewrite H in K.
  destruct (check_basic_text_char c) as [e|]; [|apply N.eqb_eq in K; contradiction]. exists e. split; [reflexivity|]. apply eqb_prop in K.
  rewrite <- saysb_spec, K. destruct (in_ranges c other_message); cbn [negb]; split; congruence.
Qed.
Lemma chk_tables : map (fun r => fst r) doc_error_rows = firstn 1 (map fst doc_rows) ++ [(0xC, 0xC); (0x1B, 0x1B)] ++ skipn 1 (map fst doc_rows).
Proof. vm_compute. reflexivity. Qed.
Lemma find_range : forall A (l : list (N * N * A)) c, find (fun r => in_range c (fst (fst r)) (snd (fst r))) l = None <-> in_ranges c (map fst l) = false.
Proof.
  intros A l c. induction l as [|[[a b] x] l IH]; cbn [find map in_ranges existsb fst snd]; [tauto|]. destruct (in_range c a b); [split; discriminate|exact IH].
Qed.
Lemma find_rows : forall A (l : list (N * N * A)) c, (match find (fun r => in_range c (fst (fst r)) (snd (fst r))) l with Some r => Some (snd r) | None => None end = None) <-> in_ranges c (map fst l) = false.
Proof. intros A l c. rewrite <- find_range. destruct (find _ _); split; congruence. Qed.
Theorem every_row : forall c, doc_error c = None <-> doc_lookup c = None.
Proof.
  intro c. unfold doc_error, doc_lookup.
  assert (A : (match find (fun r : N * N * message => in_range c (fst (fst r)) (snd (fst r))) doc_error_rows with Some r => Some (snd r) | None => None end = None) <-> in_ranges c (map fst doc_error_rows) = false).
  { apply find_rows. }
  assert (B : (match find (fun r : N * N * doc_action => in_range c (fst (fst r)) (snd (fst r))) doc_rows with Some r => Some (snd r) | None => None end = None) <-> in_ranges c (map fst doc_rows) = false).
  { apply find_rows. }
  rewrite A, (chk_tables : map fst doc_error_rows = _), !in_ranges_app. cbn [in_ranges existsb fst snd]. rewrite !in_range_single.
  rewrite <- (firstn_skipn 1 (map fst doc_rows)), in_ranges_app in B.
  destruct (c =? 0xC); [rewrite orb_true_r; split; discriminate|]. destruct (c =? 0x1B); [rewrite orb_true_r; split; discriminate|].
  cbn [orb]. symmetry. exact B.
Qed.

(** * Which error is reported *)
Lemma recorded_go : forall s e, fold_left (fun e c => match check_basic_text_char c with Some x => Some x | None => e end) s e =
  match recorded s with Some x => Some x | None => e end.
Proof.
  unfold recorded. induction s as [|c s IH]; intro e; [reflexivity|]. cbn [fold_left]. rewrite IH, (IH (match check_basic_text_char c with Some x => Some x | None => None end)).
  destruct (fold_left _ s None); [reflexivity|]. destruct (check_basic_text_char c); reflexivity.
Qed.
Lemma recorded_app : forall a b, recorded (a ++ b) = match recorded b with Some x => Some x | None => recorded a end.
Proof. intros a b. unfold recorded at 1. rewrite fold_left_app. apply recorded_go. Qed.
Lemma recorded_none : forall s, recorded s = None <-> Forall (fun c => check_basic_text_char c = None) s.
Proof.
  induction s as [|c s IH]; [split; [constructor|reflexivity]|]. change (c :: s) with ([c] ++ s). rewrite recorded_app. destruct (recorded s) eqn:E.
  - split; [discriminate|]. intro H. inversion H; subst. apply IH in H3. discriminate.
  - unfold recorded. cbn [fold_left app]. assert (HS : Forall (fun c => check_basic_text_char c = None) s) by now apply IH.
    destruct (check_basic_text_char c) eqn:K; split; try discriminate; intro H; [inversion H; congruence|now constructor|reflexivity].
Qed.
Theorem recorded_last : forall s e, recorded s = Some e <-> exists a c b, s = a ++ c :: b /\ check_basic_text_char c = Some e /\ Forall (fun x => check_basic_text_char x = None) b.
Proof.
  intros s e. split.
  - induction s as [|c s IH] using rev_ind; [discriminate|]. rewrite recorded_app. unfold recorded at 1. cbn [fold_left]. destruct (check_basic_text_char c) eqn:K; intro H.
    + injection H as ->. exists s, c, []. auto.
    + destruct (IH H) as (a & d & b & -> & H1 & H2). exists a, d, (b ++ [c]). rewrite <- app_assoc. split; [reflexivity|]. split; [exact H1|]. apply Forall_app. auto.
  - intros (a & c & b & -> & H1 & H2). change (c :: b) with ([c] ++ b). rewrite !recorded_app. apply recorded_none in H2. rewrite H2. unfold recorded at 1. cbn [fold_left]. now rewrite H1.
Qed.

Lemma sm_check : forall cs w w', sm_chars w cs = (Some EWCheck, w') -> In SUB cs.
Proof.
  induction cs as [|c cs IH]; intros w w' H; [discriminate|]. cbn [sm_chars] in H. destruct (sm_char w c) as [[e|] v] eqn:E.
  - injection H as -> <-. left. unfold sm_char in E. destruct (wst w).
    + destruct ((c =? ESC) && ansi w); [discriminate|]. destruct (c =? LF); [discriminate|]. destruct (c =? SUB) eqn:K; [now apply N.eqb_eq|]. destruct (c =? ESC); discriminate.
    + destruct (c =? 0x5B); discriminate.
    + destruct (in_range c 0x20 0x3F); [discriminate|]. destruct (c =? 0x6D); discriminate.
  - right. exact (IH _ _ H).
Qed.
Lemma check_SUB : exists e, check_basic_text_char SUB = Some e. Proof. eexists. vm_compute. reflexivity. Qed.
Lemma first_refused : forall s, In SUB (categorize s) -> exists a c b e, s = a ++ c :: b /\ Forall (fun x => check_basic_text_char x = None) a /\ check_basic_text_char c = Some e.
Proof.
  induction s as [|c s IH]; intro H; [destruct H|]. destruct (check_basic_text_char c) as [e|] eqn:E.
  - exists [], c, s, e. auto.
  - unfold categorize in H. cbn [map In] in H. destruct H as [H|H].
    + unfold categorize1 in H. rewrite E in H. subst c. destruct check_SUB as [e K]. congruence.
    + destruct (IH H) as (a & d & b & e & -> & HA & HD). exists (c :: a), d, b, e. auto.
Qed.
Theorem refused_reports : forall w x w', state_machine w x = (Some EWCheck, w') -> exists a c b e, x = a ++ c :: b /\
  Forall (fun y => check_basic_text_char y = None) a /\ check_basic_text_char c = Some e /\
  recorded (a ++ [c]) = Some e /\
  (forall k, (length a < k)%nat -> exists d e', In d (firstn k x) /\ check_basic_text_char d = Some e' /\ recorded (firstn k x) = Some e').
Proof.
  intros w x w' H. unfold state_machine in H. apply sm_check in H. apply (converted_in SUB x kept_SUB) in H. destruct (first_refused _ H) as (a & c & b & e & -> & HA & HC).
  exists a, c, b, e. split; [reflexivity|]. split; [exact HA|]. split; [exact HC|]. split; [rewrite recorded_app; unfold recorded at 1; cbn [fold_left]; now rewrite HC|].
  intros k HK. destruct (recorded (firstn k (a ++ c :: b))) as [e'|] eqn:E.
  - pose proof E as E2. apply recorded_last in E2. destruct E2 as (a' & d & b' & E2 & HD & _). exists d, e'. split; [rewrite E2; apply in_elt|auto].
  - exfalso. apply recorded_none in E. rewrite Forall_forall in E. rewrite (E c) in HC; [discriminate|]. rewrite firstn_app. apply in_or_app. right.
    replace (k - length a)%nat with (S (k - length a - 1)) by lia. now left.
Qed.
Lemma split_in : forall s seg c, In seg (split_lf s) -> In c seg -> In c s.
Proof.
  induction s as [|x s IH]; intros seg c H HC; [cbn in H; destruct H as [<-|[]]; destruct HC|]. cbn [split_lf] in H. destruct (x =? LF).
  - destruct H as [<-|H]; [destruct HC|]. right. now apply (IH seg).
  - destruct (split_lf s) as [|y l] eqn:E.
    + destruct H as [<-|[]]. destruct HC as [<-|[]]. now left.
    + destruct H as [<-|H].
      * destruct HC as [<-|HC]; [now left|]. right. apply (IH y); [now left|exact HC].
      * right. apply (IH seg); [now right|exact HC].
Qed.
Lemma write_buffer_check : forall w w', write_buffer w <> (Some EWCheck, w').
Proof.
  intros w w' H. unfold write_buffer in H. destruct (expect w && _); [discriminate|]. destruct (sink_write _ _) as [ok k]. destruct ok; discriminate.
Qed.
(** a write that is refused for a character contains it *)
Theorem write_refused_char : forall w s w', write_str w s = (Some EWCheck, w') -> exists c e, In c s /\ check_basic_text_char c = Some e.
Proof.
  intros w s w' H. assert (R : forall w x w', state_machine w x = (Some EWCheck, w') -> exists c e, In c x /\ check_basic_text_char c = Some e).
  { intros v x v' K. destruct (refused_reports _ _ _ K) as (a & c & b & e & -> & _ & HC & _). exists c, e. split; [apply in_elt|exact HC]. }
  unfold write_str in H. destruct (if crlf w then _ else _) as [[e|] v] eqn:E; cbn [and_then] in H; [|now apply write_buffer_check in H]. injection H as -> <-.
  destruct (crlf w); [|exact (R _ _ _ E)].
  assert (G : forall segs w w', crlf_rest w segs = (Some EWCheck, w') -> exists seg c e, In seg segs /\ In c seg /\ check_basic_text_char c = Some e).
  { clear - R. induction segs as [|seg segs IH]; intros w w' H; [discriminate|]. cbn [crlf_rest] in H. destruct (state_machine (push_crlf w) seg) as [[e|] v] eqn:E.
    - injection H as -> <-. destruct (R _ _ _ E) as (c & e & HC & K). exists seg, c, e. split; [now left|auto].
    - destruct (IH _ _ H) as (sg & c & e & H1 & H2). exists sg, c, e. split; [now right|auto]. }
  unfold crlf_segs in E. destruct (split_lf s) as [|seg segs] eqn:ES; [discriminate|]. destruct (state_machine w seg) as [[e|] u] eqn:K.
  - injection E as -> <-. destruct (R _ _ _ K) as (c & e & HC & HE). exists c, e. split; [|exact HE]. apply (split_in s seg); [rewrite ES; now left|exact HC].
  - destruct (G _ _ _ E) as (sg & c & e & H1 & H2 & H3). exists c, e. split; [|exact H3]. apply (split_in s sg); [rewrite ES; now right|exact H2].
Qed.

(** escape sequences without ansi_color *)
Lemma sm_escape : forall cs w g, ansi w = false -> wst w = WGround g -> ~ In SUB cs -> In ESC cs -> exists w', sm_chars w cs = (Some EWEscape, w').
Proof.
  induction cs as [|c cs IH]; intros w g A G NS HE; [destruct HE|]. cbn [sm_chars]. unfold sm_char. rewrite G, A, andb_false_r.
  destruct (c =? LF) eqn:L.
  - apply N.eqb_eq in L. subst c. destruct HE as [HE|HE]; [discriminate|]. eapply IH; try reflexivity; [exact A|intro K; apply NS; now right|exact HE].
  - destruct (c =? SUB) eqn:K; [apply N.eqb_eq in K; subst c; elim NS; now left|]. destruct (c =? ESC) eqn:E; [eexists; reflexivity|].
    apply N.eqb_neq in E. destruct HE as [HE|HE]; [contradiction|]. eapply IH; try reflexivity; [exact A|intro H; apply NS; now right|exact HE].
Qed.
Theorem escape_message : forall w g s, wst w = WGround g -> ansi w = false -> crlf w = false ->
  (forall c, In c s -> check_basic_text_char c = None) -> In ESC s -> exists w', write_str w s = (Some EWEscape, w').
Proof.
  intros w g s G A CR HC HE. unfold write_str. rewrite CR. unfold state_machine.
  assert (CS : categorize s = s).
  { unfold categorize. rewrite <- (map_id s) at 2. apply map_ext_in. intros c H. unfold categorize1. now rewrite HC. }
  destruct (sm_escape (converted s) w g A G) as [w' H].
  - intro H. apply (converted_in SUB s kept_SUB) in H. rewrite CS in H. destruct check_SUB as [e K]. rewrite HC in K by exact H. discriminate.
  - apply (converted_in ESC s kept_ESC). now rewrite CS.
  - rewrite H. cbn [and_then]. eauto.
Qed.
