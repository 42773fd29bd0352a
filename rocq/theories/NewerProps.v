(** Text of later versions of Unicode, read by this one. *)
From Coq Require Import NArith Arith List Bool Lia ZifyBool ZifyNat ZifyN.
From Verif Require Import Base Ucd Norm Chars TextUtils Utf8 Input Strings UcdFacts NormFacts CharFacts SpecText SpecRead SpecString TextFacts PipelineFacts IsoFacts StringFacts StringProps ReadFacts ReadSession ReadChunk ReadPieces LossyProps CanonProps OptionProps Future FutureProps.
Import ListNotations.
Local Open Scope N_scope.
Arguments N.add : simpl never.
Arguments N.leb : simpl never.
Arguments N.ltb : simpl never.
Arguments N.eqb : simpl never.
Local Opaque pipeline.

(** every part of assigned characters is Stream-Safe NFC *)
Definition runs_normal (s : list N) : Prop := forall a w b, s = a ++ w ++ b -> all_assigned w -> nfc_ss w.
Lemma runs_part : forall a s b, runs_normal (a ++ s ++ b) -> runs_normal s.
Proof. intros a s b H x w y E A. subst s. apply (H (a ++ x) w (y ++ b)); [now rewrite <- !app_assoc|exact A]. Qed.
Lemma nfc_ss_nil : nfc_ss [].
Proof. split; reflexivity. Qed.
Lemma runs_line : forall s, runs_normal s -> runs_normal (s ++ [LF]).
Proof.
  intros s H a w b E A. destruct b as [|b0 b] using rev_ind.
  - rewrite app_nil_r in E. destruct w as [|w0 w] using rev_ind; [exact nfc_ss_nil|]. rewrite app_assoc in E. apply app_inj_tail in E. destruct E as [-> <-].
    apply nfc_ss_split; [exact boring_LF| |exact nfc_ss_nil]. apply Forall_app in A. apply (H a w []); [now rewrite app_nil_r|apply A].
  - rewrite !app_assoc in E. apply app_inj_tail in E. destruct E as [-> _]. apply (H a w b); [now rewrite <- app_assoc|exact A].
Qed.
Lemma inserts_prefix : forall s t, inserts CGJ s t -> forall w b, t = w ++ b -> ~ In CGJ w -> exists b', s = w ++ b'.
Proof.
  induction 1 as [|c s t I IH|s t I IH]; intros w b E N.
  - destruct w; [now exists []|discriminate].
  - destruct w as [|d w]; [now exists (c :: s)|]. injection E as <- E. destruct (IH w b E) as [b' ->]; [intro K; apply N; now right|]. now exists b'.
  - destruct w as [|d w]; [now exists s|]. injection E as <- E. elim N. now left.
Qed.
Lemma inserts_part : forall s t, inserts CGJ s t -> forall a w b, t = a ++ w ++ b -> ~ In CGJ w -> exists a' b', s = a' ++ w ++ b'.
Proof.
  induction 1 as [|c s t I IH|s t I IH]; intros a w b E N.
  - destruct a; [destruct w; [now exists [], []|discriminate]|discriminate].
  - destruct a as [|d a].
    + destruct (inserts_prefix (c :: s) (c :: t) (ins_keep _ _ _ _ I) w b E N) as [b' ->]. now exists [], b'.
    + injection E as <- E. destruct (IH a w b E N) as (a' & b' & ->). now exists (c :: a'), b'.
  - destruct a as [|d a].
    + destruct (inserts_prefix s (CGJ :: t) (ins_add _ _ _ I) w b E N) as [b' ->]. now exists [], b'.
    + injection E as <- E. exact (IH a w b E N).
Qed.
(** text is normal if its parts without U+34F and unassigned characters are *)
Lemma normal_parts : forall x, (forall a w b, x = a ++ w ++ b -> all_assigned w -> ~ In CGJ w -> nfc_ss w) -> nfc_ss x.
Proof.
  intros x. remember (length x) as n eqn:E. revert x E. induction n as [n IH] using lt_wf_ind. intros x E H.
  assert (D : (all_assigned x /\ ~ In CGJ x) \/ exists a i b, x = a ++ i :: b /\ boring i).
  { clear. induction x as [|c x IH]; [left; split; [constructor|intros []]|]. destruct (is_assigned c) eqn:C; [|right; exists [], c, x; split; [reflexivity|now apply unassigned_boring]].
    destruct (N.eq_dec c CGJ) as [->|NC]; [right; exists [], CGJ, x; split; [reflexivity|exact boring_CGJ]|].
    destruct IH as [[A N]|(a & i & b & -> & B)]; [left; split; [now constructor|intros [K|K]; auto]|right; exists (c :: a), i, b; auto]. }
  destruct D as [[A N]|(a & i & b & -> & B)]; [apply (H [] x []); [now rewrite app_nil_r|exact A|exact N]|].
  apply nfc_ss_split; [exact B| |].
  - apply (IH (length a)); [subst n; rewrite app_length; cbn [length]; lia|reflexivity|]. intros p w q -> A N. apply (H p w (q ++ i :: b)); [now rewrite <- !app_assoc|exact A|exact N].
  - apply (IH (length b)); [subst n; rewrite app_length; cbn [length]; lia|reflexivity|]. intros p w q -> A N. apply (H (a ++ i :: p) w q); [now rewrite <- app_assoc|exact A|exact N].
Qed.
Lemma inserts_in : forall s t, inserts CGJ s t -> forall c, In c t -> c = CGJ \/ In c s.
Proof. induction 1 as [|c s t I IH|s t I IH]; intros d D; [destruct D| |]; (destruct D as [<-|D]; [|apply IH in D]); cbn; tauto. Qed.
Theorem runs_isolated : forall s, all_clean s -> runs_normal s -> pipeline s = isolate_unassigned s.
Proof.
  intros s C R. pose proof (iso_only_adds s) as I. change 0x34F with CGJ in I. rewrite pipeline_conv. unfold conv. rewrite cjk_clean_id.
  - assert (NS : nfc_ss (isolate_unassigned s)); [|destruct NS as [N1 N2]; now rewrite N2, N1].
    apply normal_parts. intros a w b E A N. destruct (inserts_part _ _ I a w b E N) as (a' & b' & ES). exact (R a' w b' ES A).
  - apply Forall_forall. intros c HC. destruct (inserts_in _ _ I c HC) as [->|HS]; [exact clean_CGJ|]. rewrite Forall_forall in C. now apply C.
Qed.

Section Later.
  Variable t : ucd.
  Hypothesis L : later t.
  Lemma go_len : forall s n, (length s <= length (stream_safe_go_in t n s))%nat.
  Proof. induction s as [|c s IH]; intro n; cbn [stream_safe_go_in]; [lia|]. destruct (Nat.ltb _ _); cbn [length]; specialize (IH (count_next_in t 0 c)) as H1; specialize (IH (count_next_in t n c)) as H2; lia. Qed.
  Lemma go_step : forall c s n, (n <= 30)%nat -> stream_safe_go_in t n (c :: s) = c :: s -> (n + cl_leading_in t c <= 30)%nat /\ (count_next_in t n c <= 30)%nat /\ stream_safe_go_in t (count_next_in t n c) s = s.
  Proof.
    intros c s n H E. cbn [stream_safe_go_in] in E. unfold MAX_NONSTARTERS in E. destruct (Nat.ltb 30 (n + cl_leading_in t c)) eqn:B.
    - exfalso. pose proof (go_len s (count_next_in t 0 c)) as G. apply (f_equal (@length N)) in E. cbn [length] in E. lia.
    - injection E as E. split; [lia|]. split; [|exact E]. unfold count_next_in. destruct (Nat.eqb (cl_leading_in t c) (length (t_kd t c))) eqn:EQ; [lia|].
      unfold cl_trailing_in. pose proof (leading_in_len t (rev (t_kd t c))) as R. rewrite rev_length in R. pose proof (later_length t L c). destruct (_ || _); lia.
  Qed.
  Lemma go_part : forall a n s, (n <= 30)%nat -> stream_safe_go_in t n (a ++ s) = a ++ s -> exists m, (m <= 30)%nat /\ stream_safe_go_in t m s = s.
  Proof. induction a as [|c a IH]; intros n s H E; [now exists n|]. destruct (go_step c (a ++ s) n H E) as (_ & H2 & E2). exact (IH _ _ H2 E2). Qed.
  Lemma go_assigned : forall w n b, (n <= 30)%nat -> all_assigned w -> stream_safe_go_in t n (w ++ b) = w ++ b -> ss_ok n w = true.
  Proof.
    induction w as [|c w IH]; intros n b H A E; [reflexivity|]. inversion A as [|? ? C A']; subst. destruct (go_step c (w ++ b) n H E) as (H1 & H2 & E2).
    destruct (cl_same t L c C) as [K1 K2]. rewrite K1 in H1. rewrite K2 in H2, E2. cbn [ss_ok]. rewrite (IH _ b H2 A' E2). apply andb_true_iff. split; [lia|reflexivity].
  Qed.
  Theorem newer_runs : forall s, parts_normal t -> normal_in t s -> runs_normal s.
  Proof.
    intros s P [E1 E2] a w b -> A. split.
    - rewrite <- (nfc_same t L w A). exact (P a w b E1).
    - apply ss_ok_iff. destruct (go_part a 0 (w ++ b) ltac:(lia) E2) as (m & M & EM). pose proof (go_assigned w m b M A EM) as O.
      rewrite !ss_ok_runs in * by lia. apply (runs_ok_mono _ m); [lia|exact O].
  Qed.
  Lemma inserts_app : forall a a' b b', inserts CGJ a a' -> inserts CGJ b b' -> inserts CGJ (a ++ b) (a' ++ b').
  Proof. induction 1; intro H'; cbn [app]; [exact H'|now apply ins_keep, IHinserts|now apply ins_add, IHinserts]. Qed.

  Theorem newer_from_text : forall check s, parts_normal t -> normal_in t s -> strict_accepts s -> string_from_text check s = TOk (isolate_unassigned s).
  Proof.
    intros check s P E SA. rewrite string_from_text_spec, (proj2 (accepted_iff s) SA). f_equal. apply runs_isolated; [|now apply newer_runs]. apply Forall_allowed_clean, SA.
  Qed.
  Theorem newer_stream : forall script sizes rs j rest, no_push script -> bom_visible script -> reads (new_input false false) script sizes = (rs, j, rest) -> reached_end rs ->
    parts_normal t -> normal_in t (stream_text script) -> strict_accepts (stream_text script) ->
    inserts CGJ (stream_text script ++ line_end (stream_text script)) (delivered rs).
  Proof.
    intros script sizes rs j rest NP BV R E P EN SA. destruct (session_end _ _ _ _ _ _ _ R E) as (-> & _).
    destruct (converted_pieces false false script NP BV) as (ps & CP & _ & ->). rewrite (accepts_translate _ SA) in CP.
    set (v := stream_text script) in *. rewrite <- CP.
    assert (RV : runs_normal (v ++ line_end v)).
    { pose proof (newer_runs v P EN) as RN. unfold line_end. destruct (last_opt v) as [c|]; [destruct (c =? LF)|]; rewrite ?app_nil_r; try exact RN. now apply runs_line. }
    assert (CV : all_clean (v ++ line_end v)).
    { apply Forall_app. split; [apply Forall_allowed_clean, SA|]. unfold line_end. destruct (last_opt v) as [c|]; [destruct (c =? LF)|]; try constructor; [|constructor]. reflexivity. }
    rewrite <- CP in RV, CV. clear - RV CV. induction ps as [|p ps IH]; [constructor|]. cbn [concat map] in *. apply inserts_app.
    - rewrite runs_isolated; [apply iso_only_adds|now apply Forall_app in CV|]. exact (runs_part [] p (concat ps) RV).
    - apply IH; [|now apply Forall_app in CV]. apply (runs_part p (concat ps) []). now rewrite app_nil_r.
  Qed.
End Later.

Lemma present_parts : parts_normal present.
Proof. intros a w b E. rewrite nfc_present in *. apply nfc_suffix in E. now apply nfc_prefix in E. Qed.
