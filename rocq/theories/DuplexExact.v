(** Exact reads through a duplexer; abandoning a duplexer. *)
From Coq Require Import NArith Arith List Bool Lia.
From Verif Require Import Base Chars TextUtils Utf8 Utf8Facts Input Output ReadFacts ReadSession SpecRead SpecWrite WriteFacts WriteProps WriteColour Copy CopyProps ExactProps Duplex SpecDuplex DuplexProps.
Import ListNotations.
Local Open Scope N_scope.

(** * Exact reads *)
Definition at_line (d : duplexer) : Prop := wst (dout d) = WGround Newline.
Lemma duplex_read_reader : forall d b r cs d', duplex_read d b = (r, cs, d') -> read (din d) (dscript d) b = (r, cs, din d', dscript d').
Proof. intros d b r cs d' H. unfold duplex_read in H. destruct (read (din d) (dscript d) b) as [[[r0 cs0] i] sc]. injection H as <- <- <-. reflexivity. Qed.
Lemma duplex_read_line : forall d b r cs d', duplex_read d b = (r, cs, d') -> at_line d -> at_line d'.
Proof.
  intros d b r cs d' H A. unfold duplex_read in H. destruct (read (din d) (dscript d) b) as [[[r0 cs0] i] sc]. injection H as <- <- <-. unfold at_line in *. cbn [dout].
  destruct r0 as [n s| |]; try exact A. unfold newline. destruct (_ && _); [reflexivity|exact A].
Qed.
Lemma duplex_read_lf : forall d b n s cs d', duplex_read d b = (ROk (S n) s, cs, d') -> last_opt cs = Some LF -> at_line d'.
Proof.
  intros d b n s cs d' H L. unfold duplex_read in H. destruct (read (din d) (dscript d) b) as [[[r0 cs0] i] sc]. injection H as -> -> <-. unfold at_line. cbn [dout].
  rewrite L. reflexivity.
Qed.
Lemma fill_step : forall intr f d room, (0 < room)%nat -> duplex_fill intr (S f) d room =
  (let '(r, cs, d') := duplex_read d room in
   match std_result intr r with
   | SOk O => Some (ExactEof, [], d')
   | SOk n => match duplex_fill intr f d' (room - n) with Some (e, t, d'') => Some (e, cs ++ t, d'') | None => None end
   | SInterrupted => duplex_fill intr f d' room
   | SErr => Some (ExactErr, [], d')
   end).
Proof. intros intr f d room H. destruct room; [lia|reflexivity]. Qed.
Lemma fill_reader : forall intr fuel d room, match duplex_fill intr fuel d room with
  | Some (e, t, d') => read_exact intr fuel (din d) (dscript d) room = Some (e, t, din d', dscript d')
  | None => read_exact intr fuel (din d) (dscript d) room = None
  end.
Proof.
  intros intr. induction fuel as [|f IH]; intros d room; [destruct room; reflexivity|]. destruct room as [|room]; [reflexivity|].
  rewrite fill_step, exact_step by lia. destruct (duplex_read d (S room)) as [[r cs] d1] eqn:E. rewrite (duplex_read_reader _ _ _ _ _ E).
  destruct (std_result intr r) as [[|n]| |]; try reflexivity; [|apply IH].
  specialize (IH d1 (S room - S n)%nat). destruct (duplex_fill intr f d1 (S room - S n)) as [[[e t] d2]|]; now rewrite IH.
Qed.
Lemma fill_line : forall intr fuel d room e t d', duplex_fill intr fuel d room = Some (e, t, d') -> at_line d \/ last_opt t = Some LF -> at_line d'.
Proof.
  intros intr. induction fuel as [|f IH]; intros d room e t d' H A.
  - destruct room; [|discriminate]. injection H as <- <- <-. now destruct A as [A|A].
  - destruct room as [|room]; [injection H as <- <- <-; now destruct A as [A|A]|]. rewrite fill_step in H by lia. destruct (duplex_read d (S room)) as [[r cs] d1] eqn:E.
    pose proof (duplex_read_line _ _ _ _ _ E) as K.
    destruct (std_result intr r) as [[|n]| |] eqn:ES.
    + injection H as <- <- <-. destruct A as [A|A]; [now apply K|discriminate].
    + destruct (duplex_fill intr f d1 (S room - S n)) as [[[e0 t0] d2]|] eqn:EF; [|discriminate]. injection H as -> <- <-. apply (IH _ _ _ _ _ EF).
      destruct A as [A|A]; [left; now apply K|]. rewrite ReadFacts.last_opt_app in A. destruct (last_opt t0) as [c|] eqn:EL; [now right|left].
      destruct (std_ok _ _ _ ES) as [s ->]. exact (duplex_read_lf _ _ _ _ _ _ E A).
    + apply (IH _ _ _ _ _ H). destruct A as [A|A]; [left; now apply K|now right].
    + injection H as <- <- <-. destruct A as [A|A]; [now apply K|discriminate].
Qed.
Lemma fill_ops : forall intr fuel d room e t d', duplex_fill intr fuel d room = Some (e, t, d') ->
  exists sizes rs, do_dops d (map DRead sizes) = (rs, d').
Proof.
  intros intr. induction fuel as [|f IH]; intros d room e t d' H.
  - destruct room; [|discriminate]. injection H as <- <- <-. now exists [], [].
  - destruct room as [|room]; [injection H as <- <- <-; now exists [], []|]. rewrite fill_step in H by lia. destruct (duplex_read d (S room)) as [[r cs] d1] eqn:E.
    assert (SK : forall sizes rs, do_dops d1 (map DRead sizes) = (rs, d') -> do_dops d (map DRead (S room :: sizes)) = (DGot r cs :: rs, d')) by (intros sizes rs K; cbn [map do_dops do_dop]; now rewrite E, K).
    destruct (std_result intr r) as [[|n]| |].
    + injection H as <- <- <-. exists [S room], [DGot r cs]. apply (SK [] []). reflexivity.
    + destruct (duplex_fill intr f d1 (S room - S n)) as [[[e0 t0] d2]|] eqn:EF; [|discriminate]. injection H as -> <- <-. destruct (IH _ _ _ _ _ EF) as (sizes & rs & R). exists (S room :: sizes), (DGot r cs :: rs). now apply SK.
    + destruct (IH _ _ _ _ _ H) as (sizes & rs & R). exists (S room :: sizes), (DGot r cs :: rs). now apply SK.
    + injection H as <- <- <-. exists [S room], [DGot r cs]. apply (SK [] []). reflexivity.
Qed.
Lemma newline_again : forall d b, (b = true -> at_line d) -> mkduplexer (din d) (newline (dout d) b) (dscript d) = d.
Proof.
  intros [i w s] b H. cbn [din dout dscript]. unfold newline. destruct b; [|reflexivity]. specialize (H eq_refl). unfold at_line in H. cbn [dout] in H. destruct w. cbn in H. subst. reflexivity.
Qed.
Theorem duplex_exact_reader : forall intr debug fuel d blen, ~ (debug = true /\ blen = 0%nat) ->
  match duplex_exact intr debug fuel d blen with
  | Some (Some (e, t, d')) => read_exact intr fuel (din d) (dscript d) blen = Some (e, t, din d', dscript d') /\ exists sizes rs, do_dops d (map DRead sizes) = (rs, d')
  | Some None => False
  | None => read_exact intr fuel (din d) (dscript d) blen = None
  end.
Proof.
  intros intr debug fuel d blen NE. unfold duplex_exact. pose proof (fill_reader intr fuel d blen) as FR. pose proof (fill_ops intr fuel d blen) as FO. pose proof (fill_line intr fuel d blen) as FL.
  destruct (duplex_fill intr fuel d blen) as [[[e t] d']|]; [|exact FR]. specialize (FO _ _ _ eq_refl). specialize (FL _ _ _ eq_refl).
  destruct e; [|split; assumption|split; assumption].
  destruct (debug && Nat.eqb blen 0) eqn:ED; [exfalso; apply NE; apply andb_prop in ED; destruct ED as [-> ED]; split; [reflexivity|now apply Nat.eqb_eq]|].
  rewrite newline_again; [split; assumption|]. intro B. apply FL. right. destruct (last_opt t) as [c|]; [|discriminate]. apply N.eqb_eq in B. now subst.
Qed.

(** * Abandoning *)
Lemma abandon_dead : forall w, dead (abandon w). Proof. intro w. split; reflexivity. Qed.
Lemma dead_newline : forall w b, dead w -> dead (newline w b).
Proof. intros w b [H1 H2]. unfold newline. destruct b; [|now split]. split; [reflexivity|]. now destruct w. Qed.
Lemma dead_dops : forall os d rs d', dead (dout d) -> do_dops d os = (rs, d') ->
  dead (dout d') /\ emitted (inner (dout d')) = emitted (inner (dout d)) /\
  Forall2 (fun o r => match o with DOut OpAbandon | DRead _ => True | DOut _ => exists e, r = DWrote (Some e) end) os rs.
Proof.
  induction os as [|o os IH]; intros d rs d' D H; cbn [do_dops] in H; [injection H as <- <-; auto|].
  destruct (do_dop d o) as [r d1] eqn:EO. destruct (do_dops d1 os) as [rs1 d2] eqn:ES. injection H as <- <-.
  assert (S1 : dead (dout d1) /\ emitted (inner (dout d1)) = emitted (inner (dout d)) /\ match o with DOut OpAbandon | DRead _ => True | DOut _ => exists e, r = DWrote (Some e) end).
  { destruct o as [b|o].
    - cbn [do_dop] in EO. unfold duplex_read in EO. destruct (read (din d) (dscript d) b) as [[[r0 cs0] i] sc]. injection EO as <- <-. cbn [dout].
      destruct r0; [|auto|auto]. split; [now apply dead_newline|]. split; [|exact I]. unfold newline. destruct (_ && _); [now destruct (dout d)|reflexivity].
    - destruct o; cbn [do_dop] in EO;
        try (match type of EO with context [do_op ?w ?o] => destruct (do_op w o) as [r0 w0] eqn:E; injection EO as <- <-; destruct (dead_op _ _ _ _ D E) as (K1 & K2 & K3); cbn [dout];
             split; [exact K1|]; split; [exact K2|]; destruct r0 as [e|]; [now exists e|]; exfalso; now apply K3 end).
      unfold duplex_abandon in EO. destruct (abandon_input (din d)); injection EO as <- <-; cbn [dout]; [split; [apply abandon_dead|split; [reflexivity|exact I]]|auto]. }
  destruct S1 as (D1 & E1 & R1). destruct (IH _ _ _ D1 ES) as (D2 & E2 & R2). split; [exact D2|]. split; [congruence|]. now constructor.
Qed.
Theorem duplex_abandoned : forall d os r rs d', do_dops d (DOut OpAbandon :: os) = (r :: rs, d') ->
  (r = DPanic <-> abandon_input (din d) = None) /\
  (r <> DPanic -> emitted (inner (dout d')) = emitted (inner (dout d)) /\ drop_panics (dout d') = false /\
    Forall2 (fun o r => match o with DOut OpAbandon | DRead _ => True | DOut _ => exists e, r = DWrote (Some e) end) os rs).
Proof.
  intros d os r rs d' H. cbn [do_dops do_dop] in H. unfold duplex_abandon in H. destruct (abandon_input (din d)) as [i|].
  - destruct (do_dops _ os) as [rs1 d1] eqn:E. injection H as <- <- <-. split; [split; discriminate|]. intros _.
    destruct (dead_dops _ _ _ _ (abandon_dead _ : dead (dout (mkduplexer i (abandon (dout d)) (dscript d)))) E) as ([D1 _] & D2 & D3).
    split; [exact D2|]. split; [unfold drop_panics; now rewrite D1|exact D3].
  - destruct (do_dops d os) as [rs1 d1]. injection H as <- <- <-. split; [split; auto|]. intro K. now elim K.
Qed.
