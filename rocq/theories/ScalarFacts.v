(** Conversion yields scalar values, so every buffer filled by a reader is valid UTF-8. *)
From Coq Require Import NArith Arith List Bool Lia ZifyBool ZifyNat ZifyN.
From Verif Require Import Base Ucd Norm Chars TextTables TextUtils Utf8 Input UcdFacts NormFacts CharFacts SpecText TextFacts PipelineFacts IsoFacts Utf8Facts ReadFacts ReadInv ReadSession.
Import ListNotations.
Local Open Scope N_scope.
Arguments N.add : simpl never.
Arguments N.leb : simpl never.
Arguments N.ltb : simpl never.
Arguments N.eqb : simpl never.

Transparent ccc cd kd compose qc_nfc is_public_assigned cjk_variant.
Lemma chk_canon_scalar : tall (fun (c : N) (d : list N) => forallb is_scalar d) trie_canon = true.
Proof. vm_compute. reflexivity. Qed.
Lemma chk_cjk_scalar : tall (fun (c : N) (d : N * N) => is_scalar (fst d) && is_scalar (snd d)) trie_cjk = true.
Proof. vm_compute. reflexivity. Qed.
Definition comp_scalar (a b r : N) : bool := is_scalar r.
Lemma chk_comp_scalar : tall (fun a l => forallb (fun br => comp_scalar a (fst br) (snd br)) l) trie_comp = true.
Proof. vm_compute. reflexivity. Qed.
Lemma cjk_scalar : forall c x, is_scalar c = true -> In x (cjk1 c) -> is_scalar x = true.
Proof.
  intros c x H HX. unfold cjk1 in HX. destruct (c <=? 127); [destruct HX as [<-|[]]; exact H|].
  unfold cjk_variant in HX. destruct (nfind c trie_cjk) as [[b v]|] eqn:E; [|destruct HX as [<-|[]]; exact H].
  apply (tall_spec _ _ _ _ _ chk_cjk_scalar) in E. cbn [fst snd] in E. apply andb_prop in E. destruct E as [E1 E2].
  destruct HX as [<-|[<-|[]]]; assumption.
Qed.
Global Opaque ccc cd kd compose qc_nfc is_public_assigned cjk_variant.

Lemma hangul_scalar : forall c, is_hangul_syllable c = true -> is_scalar c = true.
Proof. intros c H. unfold is_hangul_syllable, S_BASE, S_COUNT, is_scalar, in_range in *. lia. Qed.
Lemma jamo_scalar : forall c, is_jamo c = true -> is_scalar c = true.
Proof. intros c H. unfold is_jamo, is_scalar, in_range in *. lia. Qed.
Lemma cd_scalar : forall c x, is_scalar c = true -> In x (cd c) -> is_scalar x = true.
Proof.
  intros c x H HX. destruct (cd_cases c) as [E|[[A E]|E]].
  - rewrite E in HX. destruct HX as [<-|[]]. exact H.
  - rewrite E in HX. apply jamo_scalar. exact (hangul_jamo _ _ A HX).
  - apply (canon_lift _ chk_canon_scalar) in E. rewrite forallb_forall in E. now apply E.
Qed.
Lemma compose_scalar : forall k c r, compose k c = Some r -> is_scalar r = true.
Proof.
  intros k c r H. destruct (compose_inv _ _ _ H) as [(H1 & H2 & ->)|[(H1 & H2 & H3 & ->)|H1]].
  - apply hangul_scalar. apply LV_decompose; assumption.
  - apply hangul_scalar. apply LVT_decompose; assumption.
  - exact (comp_lift comp_scalar chk_comp_scalar _ _ _ H1).
Qed.
Lemma conv_scalars : forall s, scalars s -> scalars (conv s).
Proof.
  intros s H. apply nfc_forall; [intros; eapply compose_scalar; eauto|].
  apply Forall_forall. intros z HZ. apply in_flat_map in HZ. destruct HZ as (y & HY & HZ). apply (cd_scalar y); [|exact HZ].
  unfold stream_safe in HY. apply ss_in in HY. destruct HY as [HY| ->]; [|reflexivity].
  unfold cjk_compat_variants in HY. apply in_flat_map in HY. destruct HY as (x & HX & HY).
  unfold scalars in H. rewrite Forall_forall in H. eapply cjk_scalar; eauto.
Qed.
Lemma pipeline_scalars : forall s, scalars s -> scalars (pipeline s).
Proof.
  intros s H. rewrite pipeline_conv. apply conv_scalars. apply Forall_forall. intros x HX.
  unfold isolate_unassigned in HX. apply iso_in in HX. destruct HX as [HX| ->]; [|reflexivity].
  unfold scalars in H. rewrite Forall_forall in H. auto.
Qed.
Lemma replace_scalars : forall c, is_scalar c = true -> scalars (replace c).
Proof.
  intros c H. unfold replace.
  repeat match goal with |- context [if ?b then _ else _] => destruct b; [repeat constructor|] end.
  repeat constructor. exact H.
Qed.
Local Opaque pipeline replace.
Lemma scalars_app : forall a b, scalars (a ++ b) <-> scalars a /\ scalars b.
Proof. intros a b. apply Forall_app. Qed.
Lemma scalars_LF : scalars [LF]. Proof. repeat constructor. Qed.
Lemma scalars_SP : scalars [SP]. Proof. repeat constructor. Qed.
Lemma scalars_CGJ : scalars [CGJ]. Proof. repeat constructor. Qed.
Lemma scalars_nil : scalars []. Proof. constructor. Qed.

Lemma ground_scalars : forall i c, scalars (queue i) -> is_scalar c = true -> scalars (queue (step_ground i c)).
Proof.
  intros i c HQ HC. unfold step_ground, ground_char, push_set, set_st.
  repeat match goal with |- context [if c =? ?b then _ else _] => destruct (c =? b); [cbn [queue]; try apply scalars_app; auto using scalars_LF|] end.
  cbn [queue]. apply scalars_app. split; [exact HQ|]. apply scalars_app. split.
  - destruct (expect_starter i && _); auto using scalars_CGJ, scalars_nil.
  - destruct (nel_compat i && _ || _); apply replace_scalars; [reflexivity|exact HC].
Qed.
Lemma push_scalars : forall i cs s, scalars (queue i) -> scalars cs -> scalars (queue (push_set i cs s)).
Proof. intros i cs s H1 H2. cbn. apply scalars_app. auto. Qed.
Lemma step_scalars : forall i c, scalars (queue i) -> is_scalar c = true -> scalars (queue (step i c)).
Proof.
  intros i c HQ HC. unfold step.
  assert (QS : forall s, scalars (queue (set_st i s))) by (intro s; exact HQ).
  destruct (st i);
  repeat match goal with |- context [if ?b then set_st _ _ else _] => destruct b; [apply QS|] end;
  repeat match goal with |- context [if ?b then i else _] => destruct b; [exact HQ|] end;
  auto using ground_scalars.
  - destruct (c =? LF); [apply push_scalars; auto using scalars_LF|]. apply ground_scalars; [|exact HC]. apply push_scalars; auto using scalars_LF.
  - apply ground_scalars; [|exact HC]. apply push_scalars; [exact HQ|]. destruct ((c =? LF) || (c =? CR)); auto using scalars_SP, scalars_nil.
Qed.
Lemma trans_scalars : forall nel lsps cs x o x', scalars cs -> trans nel lsps x cs = (o, x') -> scalars o.
Proof.
  induction cs as [|c cs IH]; intros x o x' HS H; cbn [trans] in H; [injection H as <- <-; constructor|].
  inversion HS as [|? ? H1 H2]; subst. destruct (tstep nel lsps x c) as [o1 x1] eqn:E1. destruct (trans nel lsps x1 cs) as [o2 x2] eqn:E2.
  injection H as <- <-. apply scalars_app. split; [|eauto]. unfold tstep in E1. injection E1 as <- _. apply step_scalars; [constructor|exact H1].
Qed.
Lemma fin_scalars : forall s l x o x', fin s l x = (o, x') -> scalars o.
Proof.
  intros s l [e t] o x' H. unfold fin in H. destruct (is_active s); [injection H as <- <-; constructor|].
  cbn [snd fst] in H.
  set (r := match t with Ground _ => _ | _ => _ end) in H.
  assert (HR : scalars (fst r)) by (subst r; destruct t; auto using scalars_LF, scalars_SP, scalars_nil).
  destruct r as [o1 x1]. cbn [fst] in HR.
  set (o2 := match (match last_opt o1 with Some y => Some y | None => l end) with Some y => _ | None => _ end) in H.
  assert (HO : scalars o2). { subst o2. destruct (match last_opt o1 with Some y => Some y | None => l end) as [y|]; [destruct (is_basic_text_end y)|]; auto using scalars_CGJ, scalars_nil. }
  clearbody o2. destruct (is_end s); [destruct (is_ground_nl (snd x1))|]; injection H as <- <-; rewrite ?scalars_app; auto using scalars_LF.
Qed.

Definition script_scalars (script : list event) : Prop := forall cs s, In (Chunk cs s) script -> scalars cs.

Lemma Forall_firstn : forall A (P : A -> Prop) n l, Forall P l -> Forall P (firstn n l).
Proof. intros A P n l H. rewrite <- (firstn_skipn n l) in H. apply Forall_app in H. tauto. Qed.
Lemma absorb_scalars : forall nel lsps a raw s new a', scalars (a_res a) -> scalars raw -> absorb nel lsps a raw s = (new, a') ->
  scalars new /\ scalars (a_res a').
Proof.
  intros nel lsps a raw s new a' HA HR H. unfold absorb, pushed in H.
  destruct (trans nel lsps (a_ts a) (body (a_start a) raw)) as [o x] eqn:E1. destruct (fin s (last_opt (a_res a ++ o)) x) as [o2 x2] eqn:E2.
  injection H as <- <-. cbn [a_res].
  assert (S : scalars (a_res a ++ o ++ o2)).
  { rewrite !scalars_app. split; [exact HA|]. split; [|eapply fin_scalars; eauto]. eapply trans_scalars; [|exact E1].
    unfold body. destruct (a_start a); [|exact HR]. destruct raw as [|c raw]; [exact HR|]. destruct (c =? BOM); [now inversion HR|exact HR]. }
  split.
  - apply pipeline_scalars. unfold complete. destruct (last_boundary _); [|constructor]. now apply Forall_firstn.
  - unfold incomplete. destruct (last_boundary _); [|exact S]. now apply Forall_skipn.
Qed.

Definition scal (i : input) : Prop := scalars (avail i) /\ scalars (residue i).
Lemma scal_new : forall nel lsps, scal (new_input nel lsps).
Proof. intros. split; [|constructor]. rewrite (proj2 (abs_new _ _)). constructor. Qed.

Lemma inner_scalars : forall script raw s script', script_scalars script -> inner_read script = (Some (raw, s), script') -> scalars raw /\ script_scalars script'.
Proof.
  intros [|[cs s0|] t] raw s script' H E; cbn in E; [| |discriminate].
  - injection E as <- <- <-. split; [constructor|intros ? ? []].
  - assert (scalars cs) by (apply (H cs s0); now left). destruct s0; injection E as <- <- <-; split; auto; try (intros ? ? []); intros c s' HI; apply (H c s'); now right.
Qed.
Lemma fail_scalars : forall script script', script_scalars script -> inner_read script = (None, script') -> script_scalars script'.
Proof.
  intros [|[cs s0|] t] script' H E; cbn in E; [discriminate|destruct s0; discriminate|]. injection E as <-. intros c s' HI. apply (H c s'). now right.
Qed.
Lemma read_scalars : forall i script b r cs j script', wf i -> scal i -> script_scalars script -> read i script b = (r, cs, j, script') ->
  scalars cs /\ scal j /\ script_scalars script'.
Proof.
  intros i script b r cs j script' W [S1 S2] SS H. destruct (read_spec _ _ _ _ _ _ _ W H) as (W1 & _ & _ & C).
  destruct C as [(_ & _ & -> & -> & ->)|[(_ & -> & _ & A & AB & _)|[(_ & EI & -> & A & AB & _)|(raw & s & n & cs2 & EI & _ & _ & AB & -> & -> & _)]]].
  - split; [constructor|]. split; [split; assumption|exact SS].
  - rewrite A in S1. apply scalars_app in S1. split; [tauto|]. split; [split; [tauto|]|exact SS].
    injection AB as AB _ _. now rewrite AB.
  - split; [exact S1|]. split; [|eapply fail_scalars; eauto]. split; [rewrite A; constructor|]. injection AB as AB _ _. now rewrite AB.
  - destruct (inner_scalars _ _ _ _ SS EI) as [SR SS']. destruct (absorb_scalars _ _ (abs_of i) _ _ _ _ S2 SR AB) as [SN SA].
    apply scalars_app in SN. split; [apply scalars_app; tauto|]. split; [|exact SS']. split; [tauto|exact SA].
Qed.
Lemma reads_scalars : forall sizes i script rs j script', wf i -> scal i -> script_scalars script -> reads i script sizes = (rs, j, script') ->
  scalars (delivered rs) /\ wf j /\ scal j /\ script_scalars script'.
Proof.
  induction sizes as [|b sizes IH]; intros i script rs j script' W S SS H; cbn [reads] in H.
  - injection H as <- <- <-. split; [constructor|auto].
  - destruct (read i script b) as [[[r cs] i1] sc1] eqn:ER. destruct (reads i1 sc1 sizes) as [[rs' j'] sc2] eqn:ERS. injection H as <- <- <-.
    destruct (read_scalars _ _ _ _ _ _ _ W S SS ER) as (A1 & A2 & A3). destruct (read_spec _ _ _ _ _ _ _ W ER) as (W1 & _).
    destruct (IH _ _ _ _ _ W1 A2 A3 ERS) as (B1 & B2 & B3 & B4). split; [|auto]. unfold delivered. cbn. apply scalars_app. auto.
Qed.

Theorem read_buffer : forall nel lsps script sizes rs i script1 buf n s cs j script2,
  script_scalars script -> reads (new_input nel lsps) script sizes = (rs, i, script1) ->
  read i script1 (length buf) = (ROk n s, cs, j, script2) -> valid_utf8 buf = true ->
  let buf' := buffer_after (ROk n s) cs buf in
  (n <= length buf)%nat /\ scalars cs /\ firstn n buf' = encode_all cs /\ length buf' = length buf /\ valid_utf8 buf' = true.
Proof.
  intros nel lsps script sizes rs i script1 buf n s cs j script2 SS HR H HV buf'.
  destruct (reads_scalars _ _ _ _ _ _ (wf_new nel lsps) (scal_new nel lsps) SS HR) as (_ & W & SI & SS1).
  destruct (read_scalars _ _ _ _ _ _ _ W SI SS1 H) as (SC & _ & _).
  assert (L : n = str_len cs /\ (str_len cs <= length buf)%nat).
  { destruct (read_spec _ _ _ _ _ _ _ W H) as (_ & _ & _ & C).
    destruct C as [(X & _)|[(X & _ & _ & _ & _ & L & _)|[(X & _)|(raw & s0 & n0 & cs2 & _ & _ & _ & _ & _ & _ & L & [(X & _)|(X & _)])]]];
    try discriminate; injection X as X _; auto. }
  destruct L as [-> L]. subst buf'. unfold buffer_after.
  assert (LE : length (encode_all cs) = str_len cs) by apply encode_all_length.
  split; [exact L|]. split; [exact SC|]. split; [|split].
  - rewrite firstn_app, <- LE, Nat.sub_diag, firstn_all. cbn. apply app_nil_r.
  - rewrite app_length, clear_length, skipn_length, LE. lia.
  - apply valid_app; [|apply clear_valid, HV]. apply valid_utf8_spec. eauto.
Qed.
