(** Pushes, byte order marks and abandoning a reader. *)
From Coq Require Import NArith Arith List Bool Lia ZifyBool ZifyNat ZifyN.
From Verif Require Import Base Ucd Norm Chars TextTables TextUtils Utf8 Input SpecRead SpecEscape UcdFacts NormFacts CharFacts SpecText TextFacts PipelineFacts IsoFacts Utf8Facts ReadFacts ReadInv ReadSession ReadChunk ScalarFacts EscapeFacts EscapeRun ReadProps KeepFacts ReadPieces.
Import ListNotations.
Local Open Scope N_scope.
Arguments N.add : simpl never.
Arguments N.leb : simpl never.
Arguments N.ltb : simpl never.
Arguments N.eqb : simpl never.

(** * C39 *)
Definition bom_to_wj (c : N) : N := if c =? 0xFEFF then 0x2060 else c.
Lemma replace_BOM : replace BOM = [WJ] /\ replace WJ = [WJ].
Proof. split; vm_compute; reflexivity. Qed.
Local Opaque pipeline replace.
Lemma tstep_bom : forall nel lsps x, tstep nel lsps x BOM = tstep nel lsps x WJ.
Proof.
  intros nel lsps [e t]. destruct replace_BOM as [R1 R2]. unfold tstep, stub, step, step_ground, ground_char. cbn [st fst snd].
  change (BOM =? LF) with (WJ =? LF). change (BOM =? CR) with (WJ =? CR). change (BOM =? FF) with (WJ =? FF). change (BOM =? ESC) with (WJ =? ESC).
  change (BOM =? NEL) with (WJ =? NEL). change (BOM =? LS) with (WJ =? LS). change (BOM =? PS) with (WJ =? PS).
  destruct t; cbn [negb andb orb]; rewrite ?andb_false_r, ?orb_false_r; cbn; rewrite ?R1, ?R2, ?andb_false_r; cbn; rewrite ?R1, ?R2; reflexivity.
Qed.
Lemma tstep_relabel : forall nel lsps x c, tstep nel lsps x (bom_to_wj c) = tstep nel lsps x c.
Proof. intros nel lsps x c. unfold bom_to_wj. destruct (N.eqb_spec c 0xFEFF) as [->|]; [symmetry; apply tstep_bom|reflexivity]. Qed.
Lemma trans_relabel : forall nel lsps cs x, trans nel lsps x (map bom_to_wj cs) = trans nel lsps x cs.
Proof. induction cs as [|c cs IH]; intro x; [reflexivity|]. cbn [map trans]. rewrite tstep_relabel. destruct (tstep nel lsps x c). now rewrite IH. Qed.

(** replace every byte order mark by U+2060, except one at the very start of the
    stream, which is removed *)
Definition relabel_event (e : event) : event := match e with Chunk cs s => Chunk (map bom_to_wj cs) s | Fail => Fail end.
Fixpoint relabel (start : bool) (script : list event) : list event :=
  match script with
  | Chunk cs s :: t => Chunk (map bom_to_wj (if start then without_bom cs else cs)) s :: relabel false t
  | Fail :: t => Fail :: relabel start t
  | [] => []
  end.
Lemma no_bom_body : forall b cs, body b (map bom_to_wj cs) = map bom_to_wj cs.
Proof.
  intros [] cs; [|reflexivity]. destruct cs as [|c cs]; [reflexivity|]. cbn. unfold bom_to_wj at 1. destruct (c =? 0xFEFF) eqn:E; [reflexivity|].
  change BOM with 0xFEFF. now rewrite E.
Qed.
Lemma absorb_relabel : forall nel lsps a raw s, absorb nel lsps a (map bom_to_wj (body (a_start a) raw)) s = absorb nel lsps a raw s.
Proof. intros nel lsps a raw s. unfold absorb, pushed. rewrite no_bom_body, trans_relabel. reflexivity. Qed.
Lemma feed_relabel : forall nel lsps script a, a_start a = false ->
  feed nel lsps a (evs_of (relabel false script)) = feed nel lsps a (evs_of script).
Proof.
  induction script as [|[cs s|] t IH]; intros a HA; cbn [relabel evs_of]; [reflexivity| |now apply IH].
  assert (AB : absorb nel lsps a (map bom_to_wj cs) s = absorb nel lsps a cs s) by (rewrite <- (absorb_relabel _ _ a cs), HA; reflexivity).
  assert (AS : forall n a', absorb nel lsps a cs s = (n, a') -> a_start a' = false).
  { intros n a' E. unfold absorb in E. destruct (pushed nel lsps a cs s). injection E as _ <-. reflexivity. }
  destruct s; cbn [feed]; rewrite AB; destruct (absorb nel lsps a cs _) as [n a'] eqn:E; try reflexivity; rewrite IH; auto; eapply AS; eauto.
Qed.
Theorem converted_relabel : forall nel lsps script, converted_stream nel lsps (relabel true script) = converted_stream nel lsps script.
Proof.
  intros nel lsps script. unfold converted_stream. f_equal. induction script as [|[cs s|] t IH]; cbn [relabel evs_of]; [reflexivity| |exact IH].
  assert (AB : absorb nel lsps abs0 (map bom_to_wj (without_bom cs)) s = absorb nel lsps abs0 cs s) by (rewrite without_body; exact (absorb_relabel nel lsps abs0 cs s)).
  assert (AS : forall n a', absorb nel lsps abs0 cs s = (n, a') -> a_start a' = false).
  { intros n a' E. unfold absorb in E. destruct (pushed nel lsps abs0 cs s). injection E as _ <-. reflexivity. }
  destruct s; cbn [feed]; rewrite AB; destruct (absorb nel lsps abs0 cs _) as [n a'] eqn:E; try reflexivity; rewrite feed_relabel; auto; eapply AS; eauto.
Qed.
Theorem session_relabel : forall nel lsps script sizes1 rs1 j1 rest1 sizes2 rs2 j2 rest2,
  reads (new_input nel lsps) script sizes1 = (rs1, j1, rest1) -> reads (new_input nel lsps) (relabel true script) sizes2 = (rs2, j2, rest2) ->
  reached_end rs1 -> reached_end rs2 -> delivered rs1 = delivered rs2.
Proof.
  intros nel lsps script sizes1 rs1 j1 rest1 sizes2 rs2 j2 rest2 H1 H2 E1 E2.
  destruct (session_end _ _ _ _ _ _ _ H1 E1) as (-> & _). destruct (session_end _ _ _ _ _ _ _ H2 E2) as (-> & _). symmetry. apply converted_relabel.
Qed.

(** * Line ends and U+2060 are counted *)
Theorem session_count : forall nel lsps script sizes out j rest rs x, reads (new_input nel lsps) script sizes = (out, j, rest) -> reached_end out ->
  no_push script -> bom_visible script -> replaced true (char_rep nel lsps) (without_bom (stream_text script)) rs ->
  x = 0xA \/ x = 0x2060 ->
  count_occ N.eq_dec (delivered out) x = count_occ N.eq_dec (concat rs ++ (if needs_newline rs then [LF] else [])) x.
Proof.
  intros nel lsps script sizes out j rest rs x H E NP BV HR HX. destruct (session_end _ _ _ _ _ _ _ H E) as (-> & _).
  rewrite (pieces_count x _ _ ltac:(unfold kept_char; destruct HX; subst; reflexivity) (converted_pieces nel lsps script NP BV)).
  rewrite (translate_replaced _ _ _ _ HR). rewrite !count_occ_app. f_equal.
  assert (NX : 0x34F <> x) by (destruct HX; subst; discriminate).
  unfold guard_end. assert (G : count_occ N.eq_dec (guard_start (concat rs)) x = count_occ N.eq_dec (concat rs) x).
  { unfold guard_start. destruct (concat rs) as [|c t]; [reflexivity|]. destruct (is_basic_text_start c); [reflexivity|]. now apply count_occ_cons_neq. }
  destruct (last_opt _) as [y|]; [destruct (is_basic_text_end y)|]; try exact G. rewrite count_occ_app, G. cbn [count_occ]. destruct (N.eq_dec 0x34F x); [congruence|lia].
Qed.

(** * C10 *)
(** a push is reported with the text, when the text leaves room in the buffer *)
Theorem push_reported : forall i cs t blen n s out j, read i (Chunk cs Push :: t) blen = (ROk n s, out, j, t) -> (n + 4 <= blen)%nat -> s = Push.
Proof.
  intros i cs t blen n s out j H L. unfold read in H. destruct (Nat.ltb blen NORMALIZATION_BUFFER_SIZE) eqn:EB; [discriminate|]. apply Nat.ltb_ge in EB.
  assert (NE : Chunk cs Push :: t <> t) by (intro K; apply (f_equal (@length _)) in K; cbn in K; lia).
  destruct (drain blen blen i) as [[cs1 e1] i1] eqn:D1. destruct e1; cbn [negb] in H; [|injection H as _ _ _ _ H; congruence].
  destruct (is_active (pending i1)); cbn [negb] in H; [|injection H as _ _ _ _ H; congruence].
  cbn [inner_read] in H. unfold NORMALIZATION_BUFFER_SIZE in EB.
  assert (B4 : (4 <= blen)%nat) by (unfold NORMALIZATION_BUFFER_SIZE, NORMALIZATION_BUFFER_LEN, MAX_UTF8_SIZE in EB; clear - EB; lia).
  destruct (drain_room _ _ _ _ _ _ B4 D1) as (L1 & L2 & _ & _). specialize (L2 eq_refl).
  destruct (drain (blen - str_len cs1) (blen - str_len cs1) (finish (process_raw i1 cs) Push)) as [[cs2 e2] i3] eqn:D2.
  destruct (drain_room _ _ _ _ _ _ L2 D2) as (M1 & _ & _ & M4).
  destruct e2; [now injection H as _ <- _ _|]. injection H as <- _ _ _. specialize (M4 eq_refl (le_n _)). rewrite str_len_app in L. clear - L M4. lia.
Qed.
(** a push is only reported if the underlying stream signals one *)
Theorem push_genuine : forall i script blen n out j rest, read i script blen = (ROk n Push, out, j, rest) -> exists cs, script = Chunk cs Push :: rest.
Proof.
  intros i script blen n out j rest H. unfold read in H. destruct (Nat.ltb blen NORMALIZATION_BUFFER_SIZE) eqn:EB; [discriminate|].
  destruct (drain blen blen i) as [[cs1 e1] i1]. destruct e1; cbn [negb] in H; [|discriminate].
  destruct (is_active (pending i1)); cbn [negb] in H; [|discriminate].
  destruct (inner_read script) as [[[raw s]|] sc] eqn:EI; [|discriminate].
  destruct (drain _ _ _) as [[cs2 e2] i3]. destruct e2; [|discriminate]. injection H as _ -> _ _ <-.
  destruct script as [|[c s|] t]; cbn in EI; [discriminate|destruct s; try discriminate EI; injection EI as _ <-; eauto|discriminate].
Qed.

(** * C42 *)
Theorem abandon_after_end : forall nel lsps script sizes rs j rest, reads (new_input nel lsps) script sizes = (rs, j, rest) -> reached_end rs ->
  abandon_input j <> None.
Proof.
  intros nel lsps script sizes rs j rest H E. destruct (session_end _ _ _ _ _ _ _ H E) as (_ & _ & _ & Q). unfold abandon_input. now rewrite Q.
Qed.
Theorem abandon_unread : forall nel lsps, abandon_input (new_input nel lsps) <> None.
Proof. intros nel lsps. discriminate. Qed.

(** * C08 *)
Theorem room_left : forall i script blen n s cs j script', wf i -> read i script blen = (ROk n s, cs, j, script') -> (n + 4 <= blen)%nat -> avail j = [].
Proof.
  intros i script blen n s cs j script' W H L. unfold read in H. destruct (Nat.ltb blen NORMALIZATION_BUFFER_SIZE) eqn:EB; [discriminate|]. apply Nat.ltb_ge in EB.
  assert (B4 : (4 <= blen)%nat) by (unfold NORMALIZATION_BUFFER_SIZE, NORMALIZATION_BUFFER_LEN, MAX_UTF8_SIZE in EB; clear - EB; lia).
  destruct (drain blen blen i) as [[cs1 e1] i1] eqn:D1.
  destruct (drain_spec _ _ _ _ _ _ W D1) as (W1 & A1 & R1 & (C1 & C2 & C3 & C4 & C5 & C6) & E1).
  destruct (drain_room _ _ _ _ _ _ B4 D1) as (L1 & L2 & _ & L4).
  destruct e1; cbn [negb] in H.
  - destruct (E1 eq_refl) as (A2 & Q2 & NB & RD). specialize (L2 eq_refl).
    destruct (is_active (pending i1)) eqn:EP; cbn [negb] in H.
    + destruct (inner_read script) as [[[raw s']|] sc] eqn:EI; [|discriminate].
      destruct (absorb_input i1 raw s' W1 RD Q2 EP) as (WF2 & _).
      destruct (drain (blen - str_len cs1) (blen - str_len cs1) (finish (process_raw i1 raw) s')) as [[cs2 e2] i3] eqn:D2.
      destruct (drain_spec _ _ _ _ _ _ WF2 D2) as (_ & _ & _ & _ & E3). destruct (drain_room _ _ _ _ _ _ L2 D2) as (M1 & _ & _ & M4).
      destruct e2.
      * destruct (E3 eq_refl) as (A4 & _). injection H as _ _ _ <- _. destruct (is_active s'); exact A4.
      * injection H as <- _ _ _ _. specialize (M4 eq_refl (le_n _)). rewrite str_len_app in L. clear - L M4. lia.
    + injection H as _ _ _ <- _. exact A2.
  - injection H as <- _ _ _ _. specialize (L4 eq_refl (le_n _)). clear - L L4. lia.
Qed.
(** a failure right after a call that left room in its buffer *)
Theorem failure_after_room : forall nel lsps script sizes rs i script1 b n s cs j script2 b' cs' k script3,
  reads (new_input nel lsps) script sizes = (rs, i, script1) ->
  read i script1 b = (ROk n s, cs, j, script2) -> (n + 4 <= b)%nat ->
  read j script2 b' = (RErr, cs', k, script3) -> cs' = [] /\ forall buf, buffer_after RErr cs' buf = buf.
Proof.
  intros nel lsps script sizes rs i script1 b n s cs j script2 b' cs' k script3 HS H L HF.
  destruct (reads_spec _ _ _ _ _ _ (wf_new nel lsps) HS) as (W & _). pose proof (room_left _ _ _ _ _ _ _ _ W H L) as A.
  destruct (read_spec _ _ _ _ _ _ _ W H) as (W1 & _). destruct (read_spec _ _ _ _ _ _ _ W1 HF) as (_ & _ & _ & C).
  destruct C as [(E & _)|[(E & _)|[(_ & _ & E & _)|(raw & st' & nw & cs2 & _ & _ & _ & _ & _ & _ & _ & [(E & _)|(E & _)])]]]; try discriminate E.
  rewrite A in E. subst cs'. split; reflexivity.
Qed.
