(** Bytes cut anywhere, written through a LineWriter (C96, C100). *)
From Coq Require Import NArith Arith List Bool Lia ZifyBool ZifyNat ZifyN.
From Verif Require Import Base Ucd UcdTables Norm Chars TextTables TextUtils UcdFacts NormFacts CharFacts DocTable SpecText TextFacts PipelineFacts DocFacts IsoFacts
  Utf8 Utf8Facts Input Output ReadFacts SpecRead ScalarFacts SpecConv SpecWrite WriteFacts WriteProps Strings StringFacts Copy CopyProps StdIo SpecStd CutProps StdProps
  Lines LineProps LineIo SpecStream StreamProps StdBuf SpecBuf BufWrite SpecLineBuf.
Import ListNotations.
Local Open Scope N_scope.
Local Opaque pipeline.

(** * Lines in encoded text *)
Lemma before_lf : forall a b u v, ~ In LF a -> a ++ b = (u ++ [LF]) ++ v -> exists u', u = a ++ u' /\ b = (u' ++ [LF]) ++ v.
Proof.
  induction a as [|x a IH]; intros b u v NI E; [now exists u|]. destruct u as [|y u].
  - cbn in E. injection E as -> _. destruct NI. now left.
  - cbn [app] in E. injection E as <- E. destruct (IH b u v) as (u' & -> & E2); [intro K; apply NI; now right|exact E|]. now exists u'.
Qed.
Lemma cut_at_lf : forall s u v, scalars s -> encode_all s = (u ++ [LF]) ++ v -> exists q t, s = q ++ t /\ encode_all q = u ++ [LF] /\ encode_all t = v /\ ended q.
Proof.
  induction s as [|c s IH]; intros u v SC E; [destruct u; discriminate|]. inversion SC as [|? ? C1 C2]; subst. change (encode_all (c :: s)) with (encode c ++ encode_all s) in E.
  destruct (N.eqb_spec c LF) as [->|NE].
  - change (encode LF) with [LF] in E. destruct u as [|x u].
    + cbn [app] in E. injection E as E. exists [LF], s. split; [reflexivity|]. split; [reflexivity|]. split; [exact E|now exists []].
    + cbn [app] in E. injection E as <- E. destruct (IH u v C2 E) as (q & t & -> & EQ & ET & [w ->]). exists (LF :: w ++ [0xA]), t. split; [reflexivity|]. split; [|split; [exact ET|now exists (LF :: w)]].
      change (encode_all (LF :: w ++ [0xA])) with ([LF] ++ encode_all (w ++ [0xA])). rewrite EQ. reflexivity.
  - destruct (before_lf _ _ _ _ (encode_not_LF c NE C1) E) as (u' & -> & E2). destruct (IH u' v C2 E2) as (q & t & -> & EQ & ET & [w ->]).
    exists (c :: w ++ [0xA]), t. split; [reflexivity|]. split; [|split; [exact ET|now exists (c :: w)]]. change (encode_all (c :: w ++ [0xA])) with (encode c ++ encode_all (w ++ [0xA])). rewrite EQ. now rewrite app_assoc.
Qed.

(** * One piece *)
Lemma bw_fits : forall w cap k p, (length k + length p < cap)%nat -> bw_write_all (mkbw w cap k) p = Some (None, mkbw w cap (k ++ p)).
Proof. intros w cap k p L. unfold bw_write_all. cbn [room kept passed_to]. cbv zeta. destruct (Nat.ltb_spec (length p) (cap - length k)); [reflexivity|lia]. Qed.
Lemma lw_keeps : forall w cap k p, ~ In LF k -> (length k + length p < cap)%nat -> split_last_lf p = None -> lw_write_all (mkbw w cap k) p = Some (None, mkbw w cap (k ++ p)).
Proof. intros w cap k p NK L E. unfold lw_write_all. rewrite E. cbn [kept]. rewrite not_ends by exact NK. now apply bw_fits. Qed.
Lemma lw_passes : forall w cap k p l t q, (length k + length p < cap)%nat -> split_last_lf p = Some (l, t) -> scalars q -> encode_all q = k ++ l ->
  match sends w (whole q) with
  | Some w1 => lw_write_all (mkbw w cap k) p = Some (None, mkbw w1 cap t)
  | None => exists e b, lw_write_all (mkbw w cap k) p = Some (Some e, b)
  end.
Proof.
  intros w cap k p l t q L E SQ EQ. pose proof (split_parts p) as P. rewrite E in P. destruct P as (EP & _ & _). assert (LP : (length p = length l + length t)%nat) by (rewrite EP; apply app_length).
  unfold lw_write_all. rewrite E. cbn [kept passed_to room]. destruct k as [|x k].
  - cbn [app] in EQ. rewrite <- EQ. pose proof (write_whole w q SQ) as K. destruct (sends w (whole q)) as [w1|].
    + rewrite K. apply (bw_fits w1 cap [] t). cbn in *. lia.
    + destruct K as (e & w1 & ->). eauto.
  - rewrite bw_fits by lia. rewrite <- EQ. pose proof (flush_whole w cap q SQ) as K. unfold outcome in K. destruct (sends w (whole q)) as [w1|].
    + rewrite K. apply (bw_fits w1 cap [] t). cbn in *. lia.
    + destruct K as (e & b & ->). eauto.
Qed.

(** * All of them *)
Definition fit_after (cap : nat) (k : list N) (ps : list (list N)) : Prop :=
  forall a p b l, ps = a ++ p :: b -> unfinished (k ++ concat a) l -> (length l + length p < cap)%nat.
Lemma fit_tail : forall cap k p ps k', fit_after cap k (p :: ps) -> (forall a l, unfinished (k' ++ a) l -> unfinished (k ++ p ++ a) l) -> fit_after cap k' ps.
Proof. intros cap k p ps k' F H a x b l -> U. apply (F (p :: a) x b l eq_refl). cbn [concat]. now apply H. Qed.
Lemma unfinished_more : forall u s l, ended u -> unfinished s l -> unfinished (u ++ s) l.
Proof.
  intros u s l EU (NI & v & -> & V). split; [exact NI|]. exists (u ++ v). split; [now rewrite app_assoc|]. right. destruct V as [->|[x ->]]; [rewrite app_nil_r; exact EU|]. exists (u ++ x). now rewrite app_assoc.
Qed.
Lemma byte_run : forall ps cap w k s rs b r w', scalars s -> k ++ concat ps = encode_all s -> ~ In LF k -> fit_after cap k ps ->
  each_write lw_write_all (mkbw w cap k) ps = Some (rs, b) -> bw_finish b = Some (r, w') ->
  exists qs t, s = concat qs ++ t /\ Forall ended qs /\
  (Forall (fun r => r = None) (rs ++ [r]) <-> exists w1, sends w (qs ++ whole t) = Some w1 /\ fst (close w1) = None) /\
  (Forall (fun r => r = None) (rs ++ [r]) -> forall w1, sends w (qs ++ whole t) = Some w1 -> snd (close w1) = w').
Proof.
  induction ps as [|p ps IH]; intros cap w k s rs b r w' SC EK NK F E FI.
  - cbn [concat each_write] in *. rewrite app_nil_r in EK. injection E as <- <-. exists [], s. split; [reflexivity|]. split; [constructor|]. cbn [app]. unfold bw_finish in FI. subst k. pose proof (flush_whole w cap s SC) as K. unfold outcome in K.
    destruct (sends w (whole s)) as [w1|].
    + rewrite K in FI. cbn [passed_to] in FI. injection FI as FI. destruct (close w1) as [r1 w2] eqn:EC. injection FI as <- <-. split; [split|].
      * intro H. exists w1. split; [reflexivity|]. rewrite EC. exact (Forall_inv H).
      * intros (w3 & H & H2). injection H as <-. rewrite EC in H2. constructor; [exact H2|constructor].
      * intros _ w3 H. injection H as <-. now rewrite EC.
    + destruct K as (e & b1 & K). rewrite K in FI. injection FI as <- <-. split; [split|].
      * intro H. apply Forall_inv in H. discriminate.
      * intros (w3 & H & _). discriminate.
      * intros _ w3 H. discriminate.
  - cbn [concat each_write] in *. assert (UK : unfinished (k ++ concat []) k) by (split; [exact NK|]; exists []; cbn; rewrite app_nil_r; auto).
    pose proof (F [] p ps k eq_refl UK) as L. pose proof (split_parts p) as P. destruct (split_last_lf p) as [[l t]|] eqn:ES.
    + destruct P as (-> & [u ->] & NT). rewrite <- app_assoc, app_assoc in EK.
      assert (EC : encode_all s = ((k ++ u) ++ [LF]) ++ t ++ concat ps) by (rewrite <- EK, !app_assoc; reflexivity).
      destruct (cut_at_lf _ _ _ SC EC) as (q & s' & -> & EQ & ET & EN). apply Forall_app in SC. destruct SC as [SQ SC]. rewrite <- app_assoc in EQ.
      assert (WQ : whole q = [q]) by (destruct q; [destruct EN as [z EN]; destruct z; discriminate|reflexivity]).
      pose proof (lw_passes w cap k _ _ _ q L ES SQ EQ) as K. rewrite WQ in K.
      destruct (sends w [q]) as [w1|] eqn:EW.
      * rewrite K in E. destruct (each_write lw_write_all (mkbw w1 cap t) ps) as [[rs' b']|] eqn:E2; [|discriminate]. injection E as <- <-.
        assert (F2 : fit_after cap t ps).
        { apply (fit_tail _ _ _ _ _ F). intros a y U. replace (k ++ ((u ++ [0xA]) ++ t) ++ a) with ((k ++ u ++ [0xA]) ++ t ++ a) by now rewrite <- !app_assoc. apply unfinished_more; [exists (k ++ u); now rewrite app_assoc|exact U]. }
        destruct (IH _ _ _ _ _ _ _ _ SC (eq_sym ET) NT F2 E2 FI) as (qs & t' & -> & FQ & I1 & I2). exists (q :: qs), t'. split; [cbn [concat]; now rewrite app_assoc|]. split; [now constructor|].
        change ((q :: qs) ++ whole t') with ([q] ++ (qs ++ whole t')). rewrite sends_app, EW. cbn [app]. split.
        -- rewrite <- I1. split; [intro H; now inversion H|intro H; now constructor].
        -- intro H. inversion H; subst. auto.
      * destruct K as (e & b1 & K). rewrite K in E. destruct (each_write lw_write_all b1 ps) as [[rs' b']|]; [|discriminate]. injection E as <- <-.
        exists [q], s'. split; [cbn [concat]; now rewrite app_nil_r|]. split; [constructor; [exact EN|constructor]|]. rewrite sends_app, EW. cbn [app]. split; [split|].
        -- intro H. apply Forall_inv in H. discriminate.
        -- intros (w3 & H & _). discriminate.
        -- intros _ w3 H. discriminate.
    + rewrite (lw_keeps w cap k p NK L ES) in E. destruct (each_write lw_write_all (mkbw w cap (k ++ p)) ps) as [[rs' b']|] eqn:E2; [|discriminate]. injection E as <- <-.
      assert (NK2 : ~ In LF (k ++ p)) by (intro K; apply in_app_or in K; tauto). rewrite app_assoc in EK.
      assert (F2 : fit_after cap (k ++ p) ps) by (apply (fit_tail _ _ _ _ _ F); intros a y U; now rewrite app_assoc).
      destruct (IH _ _ _ _ _ _ _ _ SC EK NK2 F2 E2 FI) as (qs & t' & ES' & FQ & I1 & I2). exists qs, t'. split; [exact ES'|]. split; [exact FQ|]. cbn [app]. split.
      * rewrite <- I1. split; [intro H; now inversion H|intro H; now constructor].
      * intro H. inversion H; subst. auto.
Qed.
Theorem linewriter_bytes : forall bom cr cap ps s rs b r w, scalars s -> concat ps = encode_all s -> s <> [] -> bytes_fit cap ps ->
  each_write lw_write_all (mkbw (new_writer cr false (below bom)) cap []) ps = Some (rs, b) -> bw_finish b = Some (r, w) ->
  (Forall (fun r => r = None) (rs ++ [r]) <-> strict_stream s) /\
  (strict_stream s -> emitted (inner w) = (if bom then [0xFEFF] else []) ++ as_sent cr (pipeline s)).
Proof.
  intros bom cr cap ps s rs b r w SC EC NE F E FI. destruct (byte_run ps cap (new_writer cr false (below bom)) [] s rs b r w SC EC (fun H => H) F E FI) as (qs & t & -> & FQ & K1 & K2).
  assert (LP : line_pieces (qs ++ whole t)) by (apply line_pieces_whole; [exact FQ|]; destruct qs; [right; exact NE|left; discriminate]).
  destruct (do_ops (new_writer cr false (below bom)) (map OpWriteStr (qs ++ whole t) ++ [OpClose])) as [rs0 w0] eqn:ED.
  destruct (stream_written bom cr _ _ _ LP ED) as [S1 S2]. destruct (sends_ops (qs ++ whole t) (new_writer cr false (below bom))) as [O1 O2]. rewrite ED in O1, O2. cbn [fst snd] in O1, O2.
  rewrite concat_app, whole_concat in S1, S2. assert (IFF : Forall (fun r => r = None) (rs ++ [r]) <-> strict_stream (concat qs ++ t)) by (rewrite <- S1, K1, O1; reflexivity).
  split; [exact IFF|]. intro A. pose proof (proj2 IFF A) as H. destruct (proj1 K1 H) as (w1 & W1 & _). rewrite <- (K2 H _ W1), <- (O2 _ W1). apply S2. now apply S1.
Qed.
