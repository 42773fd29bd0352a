(** Exact reads. *)
From Coq Require Import NArith Arith List Bool Lia ZifyBool ZifyNat ZifyN.
From Verif Require Import Base Ucd UcdTables Norm Chars TextTables TextUtils UcdFacts NormFacts CharFacts DocTable SpecText TextFacts PipelineFacts DocFacts IsoFacts
  Utf8 Utf8Facts Input Output ReadFacts ReadInv ReadSession SpecRead ReadChunk SpecEscape EscapeFacts EscapeRun ReadProps KeepFacts ReadPieces SpecConv ConvFacts ReadMore
  SpecWrite WriteFacts WriteProps Copy CopyProps.
Import ListNotations.
Local Open Scope N_scope.
Arguments N.add : simpl never.
Arguments N.leb : simpl never.
Arguments N.ltb : simpl never.
Arguments N.eqb : simpl never.
Local Opaque pipeline.

(** The texts of the successful reads that gave any. *)

(** * A read that fills its buffer *)
Lemma drain_full : forall f room i cs e j, (4 <= room)%nat -> drain f room i = (cs, e, j) -> str_len cs = room -> exists t c, cs = t ++ [c] /\ 0x10000 <= c.
Proof.
  induction f as [|f IH]; intros room i cs e j R H L; cbn [drain] in H; [injection H as <- <- <-; cbn in L; lia|].
  destruct (queue_next i) as [[c i']|]; [|injection H as <- <- <-; cbn in L; lia]. unfold MAX_UTF8_SIZE in H. destruct (Nat.ltb _ _) eqn:E.
  - injection H as <- <- <-. exists [], c. split; [reflexivity|]. cbn in L. assert (K : utf8_len c = 4%nat) by (pose proof (utf8_len_pos c); lia).
    unfold utf8_len in K. destruct (c <? 0x80); [discriminate|]. destruct (c <? 0x800); [discriminate|]. destruct (c <? 0x10000) eqn:EC; [discriminate|]. now apply N.ltb_ge.
  - apply Nat.ltb_ge in E. destruct (drain f (room - utf8_len c) i') as [[cs' e'] j'] eqn:ED. injection H as <- <- <-.
    destruct (IH _ _ _ _ _ E ED) as (t & x & -> & HX); [cbn in L; lia|]. exists (c :: t), x. auto.
Qed.
Lemma read_full : forall i sc b s cs j sc', wf i -> read i sc b = (ROk b s, cs, j, sc') -> exists t c, cs = t ++ [c] /\ 0x10000 <= c.
Proof.
  intros i sc b s cs j sc' W H. pose proof (read_count _ _ _ _ _ _ _ _ W H) as LC. unfold read in H. destruct (Nat.ltb b NORMALIZATION_BUFFER_SIZE) eqn:EB; [discriminate|]. apply Nat.ltb_ge in EB.
  assert (B4 : (4 <= b)%nat) by (unfold NORMALIZATION_BUFFER_SIZE, MAX_UTF8_SIZE, NORMALIZATION_BUFFER_LEN in EB; lia).
  destruct (drain b b i) as [[cs1 e1] i1] eqn:D1. destruct e1; cbn [negb] in H.
  - destruct (drain_room _ _ _ _ _ _ B4 D1) as (_ & R4 & _). specialize (R4 eq_refl). destruct (negb (is_active (pending i1))); [injection H as _ _ <- _ _; lia|].
    destruct (inner_read sc) as [[[raw s0]|] sc1]; [|discriminate]. destruct (drain (b - str_len cs1) (b - str_len cs1) (finish (process_raw i1 raw) s0)) as [[cs2 e2] i3] eqn:D2.
    assert (EC : cs = cs1 ++ cs2) by (destruct e2; injection H as _ _ <- _ _; reflexivity). subst cs. rewrite str_len_app in LC.
    destruct (drain_full _ _ _ _ _ _ R4 D2) as (t & c & -> & HC); [lia|]. exists (cs1 ++ t), c. now rewrite app_assoc.
  - injection H as _ _ <- _ _. exact (drain_full _ _ _ _ _ _ B4 D1 (eq_sym LC)).
Qed.

(** * Exact reads *)
Lemma exact_step : forall intr f i sc room, (0 < room)%nat -> read_exact intr (S f) i sc room =
  (let '(r, cs, i', sc') := read i sc room in
   match std_result intr r with
   | SOk O => Some (ExactEof, [], i', sc')
   | SOk n => match read_exact intr f i' sc' (room - n) with Some (e, t, i'', sc'') => Some (e, cs ++ t, i'', sc'') | None => None end
   | SInterrupted => read_exact intr f i' sc' room
   | SErr => Some (ExactErr, [], i', sc')
   end).
Proof. intros intr f i sc room H. destruct room; [lia|reflexivity]. Qed.
Lemma std_ok : forall intr r n, std_result intr r = SOk n -> exists s, r = ROk n s.
Proof. intros intr [[|n] [| |]| |] m H; cbn in H; try discriminate; try (injection H as <-; eauto). destruct intr; discriminate. Qed.

(** A successful exact read gives exactly as many bytes as the buffer has. *)
Theorem exact_length : forall intr fuel i sc room t j sc', wf i -> read_exact intr fuel i sc room = Some (ExactOk, t, j, sc') -> str_len t = room.
Proof.
  intros intr. induction fuel as [|f IH]; intros i sc room t j sc' W H.
  - destruct room; [injection H as <- _ _; reflexivity|discriminate].
  - destruct room as [|room]; [injection H as <- _ _; reflexivity|]. rewrite exact_step in H by lia. destruct (read i sc (S room)) as [[[r cs] i1] sc1] eqn:ER.
    pose proof (read_wf _ _ _ _ _ _ _ W ER) as W1. destruct (std_result intr r) as [[|n]| |] eqn:ES; try discriminate; [|exact (IH _ _ _ _ _ _ W1 H)].
    destruct (read_exact intr f i1 sc1 (S room - S n)) as [[[[e t'] i2] sc2]|] eqn:EE; [|discriminate]. injection H as -> <- <- <-. rewrite str_len_app, (IH _ _ _ _ _ _ W1 EE).
    destruct (std_ok _ _ _ ES) as [s ->]. pose proof (read_count _ _ _ _ _ _ _ _ W ER) as LC. destruct (read_spec _ _ _ _ _ _ _ W ER) as (_ & _ & _ & C).
    assert (B : (str_len cs <= S room)%nat) by (destruct C as [C|[C|[C|(raw & s' & new & cs2 & C)]]]; try (decompose [and] C; congruence); decompose [and] C; assumption).
    lia.
Qed.
(** It only succeeds if the last character is one of four bytes. *)
Theorem exact_astral : forall intr fuel i sc room t j sc', wf i -> (0 < room)%nat -> read_exact intr fuel i sc room = Some (ExactOk, t, j, sc') -> exists u c, t = u ++ [c] /\ 0x10000 <= c.
Proof.
  intros intr. induction fuel as [|f IH]; intros i sc room t j sc' W R H; [destruct room; [lia|discriminate]|].
  rewrite exact_step in H by exact R. destruct (read i sc room) as [[[r cs] i1] sc1] eqn:ER.
  pose proof (read_wf _ _ _ _ _ _ _ W ER) as W1. destruct (std_result intr r) as [[|n]| |] eqn:ES; try discriminate; [|exact (IH _ _ _ _ _ _ W1 R H)].
  destruct (read_exact intr f i1 sc1 (room - S n)) as [[[[e t'] i2] sc2]|] eqn:EE; [|discriminate]. injection H as -> <- <- <-. destruct (std_ok _ _ _ ES) as [s ->].
  destruct (Nat.eq_dec (room - S n) 0) as [Z|NZ].
  - assert (t' = []) as -> by (rewrite Z in EE; destruct f; injection EE as <- _ _; reflexivity). rewrite app_nil_r. pose proof (read_count _ _ _ _ _ _ _ _ W ER) as LC.
    assert (B : (S n <= room)%nat).
    { destruct (read_spec _ _ _ _ _ _ _ W ER) as (_ & _ & _ & C). rewrite LC. destruct C as [C|[C|[C|(raw & s' & new & cs2 & C)]]]; try (decompose [and] C; congruence); decompose [and] C; assumption. }
    assert (S n = room) by lia. subst room. exact (read_full _ _ _ _ _ _ _ W ER).
  - destruct (IH _ _ _ _ _ _ W1 (proj1 (Nat.neq_0_lt_0 _) NZ) EE) as (u & c & -> & HC). exists (cs ++ u), c. now rewrite app_assoc.
Qed.
(** What an exact read gives is what the reader delivers. *)
Theorem exact_reads : forall intr fuel i sc room e t j sc', wf i -> read_exact intr fuel i sc room = Some (e, t, j, sc') ->
  exists sizes rs, reads i sc sizes = (rs, j, sc') /\ t = concat (texts rs).
Proof.
  intros intr. induction fuel as [|f IH]; intros i sc room e t j sc' W H.
  - destruct room; [injection H as <- <- <- <-; exists [], []; auto|discriminate].
  - destruct room as [|room]; [injection H as <- <- <- <-; exists [], []; auto|]. rewrite exact_step in H by lia. destruct (read i sc (S room)) as [[[r cs] i1] sc1] eqn:ER.
    pose proof (read_wf _ _ _ _ _ _ _ W ER) as W1. assert (SK : forall sizes rs k, reads i1 sc1 sizes = (rs, j, k) -> reads i sc (S room :: sizes) = ((r, cs) :: rs, j, k)) by (intros sizes rs k K; cbn [reads]; now rewrite ER, K).
    destruct (std_result intr r) as [[|n]| |] eqn:ES.
    + injection H as <- <- <- <-. exists [S room], [(r, cs)]. split; [now apply SK|]. destruct (std_ok _ _ _ ES) as [s ->]. reflexivity.
    + destruct (read_exact intr f i1 sc1 (S room - S n)) as [[[[e' t'] i2] sc2]|] eqn:EE; [|discriminate]. injection H as -> <- <- <-. destruct (IH _ _ _ _ _ _ _ W1 EE) as (sizes & rs & R & ->).
      exists (S room :: sizes), ((r, cs) :: rs). split; [now apply SK|]. destruct (std_ok _ _ _ ES) as [s ->]. reflexivity.
    + destruct (IH _ _ _ _ _ _ _ W1 H) as (sizes & rs & R & ->). exists (S room :: sizes), ((r, cs) :: rs). split; [now apply SK|]. destruct r as [[|m] [| |]| |]; try discriminate; reflexivity.
    + injection H as <- <- <- <-. exists [S room], [(r, cs)]. split; [now apply SK|]. destruct r as [[|m] [| |]| |]; try discriminate; reflexivity.
Qed.
