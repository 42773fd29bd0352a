(** No excluded character shows up in the bytes of a text. *)
From Coq Require Import NArith Arith List Bool Lia ZifyBool ZifyNat ZifyN.
From Verif Require Import Base Ucd UcdTables Norm Chars TextTables TextUtils UcdFacts NormFacts CharFacts DocTable SpecText TextFacts PipelineFacts DocFacts IsoFacts
  Utf8 Utf8Facts Input Output SpecWrite WriteFacts WriteProps ReadFacts ReadInv ReadSession SpecRead ReadProps ScalarFacts LineProps SearchProps SpecNewlines SpecBytes.
Import ListNotations.
Local Open Scope N_scope.
Arguments N.add : simpl never.
Arguments N.leb : simpl never.
Arguments N.ltb : simpl never.
Arguments N.eqb : simpl never.
Local Opaque pipeline.

Lemma bytes_within : forall s c, scalars s -> is_scalar c = true -> within (encode c) (encode_all s) -> In c s.
Proof.
  intros s c S C (a & b & E). destruct (encode_shape c C) as (h & t & EC & HB & HT).
  rewrite EC in E. cbn [app] in E. destruct (split_at_char _ _ _ _ S E HB) as (s1 & s2 & -> & E1 & E2).
  unfold scalars in S. apply Forall_app in S. destruct S as [S1 S2].
  assert (P : encode_all s2 = encode_all [c] ++ b) by (rewrite E2; cbn [encode_all flat_map]; rewrite EC, app_nil_r; reflexivity).
  destruct (prefix_chars [c] s2 b) as (u & -> & _); [now constructor|exact S2|exact P|]. apply in_or_app. right. now left.
Qed.
Lemma bytes_allowed : forall s c, scalars s -> Forall allowed s -> is_scalar c = true -> ~ allowed c -> ~ within (encode c) (encode_all s).
Proof. intros s c S A C NA W. apply NA. apply (proj1 (Forall_forall _ _) A). now apply bytes_within. Qed.

(** A byte below 0x80 is the character. *)
Lemma ascii_byte : forall b s, scalars s -> b < 0x80 -> In b (encode_all s) -> In b s.
Proof.
  intros b s S L I. apply bytes_within; [exact S|unfold is_scalar, in_range; lia|].
  assert (E : encode b = [b]) by (unfold encode; destruct (N.ltb_spec b 0x80); [reflexivity|lia]).
  rewrite E. apply in_split in I. destruct I as (x & y & ->). exists x, y. reflexivity.
Qed.

Definition tbl_not_text : list (N * N) :=
  [(0, 8); (0xB, 0x1F); (0x7F, 0x9F); (0x2028, 0x2029); (0x202A, 0x202E); (0x2066, 0x2069); (0xFDD0, 0xFDEF); (0xFFF9, 0xFFFC); (0xFEFF, 0xFEFF)] ++
  map (fun k => (k * 0x10000 + 0xFFFE, k * 0x10000 + 0xFFFF)) [0; 1; 2; 3; 4; 5; 6; 7; 8; 9; 10; 11; 12; 13; 14; 15; 16].
Lemma not_text_tbl : forall c, not_text c -> in_ranges c tbl_not_text = true.
Proof.
  intros c H. assert (K : (exists lo hi, In (lo, hi) tbl_not_text /\ lo <= c <= hi) -> in_ranges c tbl_not_text = true).
  { intros (lo & hi & I & L). apply existsb_exists. exists (lo, hi). split; [exact I|]. unfold in_range. cbn [fst snd]. lia. }
  apply K. clear K. unfold tbl_not_text.
  destruct H as [[(H1 & H2 & H3)|H]|[H|[[H|H]|[[H|[H1 H2]]|[H|H]]]]]; unfold separator in *.
  - assert (c <= 8 \/ 0xB <= c) as [L|L] by lia; [exists 0, 8|exists 0xB, 0x1F]; (split; [|lia]); cbn; tauto.
  - exists 0x7F, 0x9F. split; [cbn; tauto|lia].
  - exists 0x2028, 0x2029. split; [cbn; tauto|lia].
  - exists 0x202A, 0x202E. split; [cbn; tauto|lia].
  - exists 0x2066, 0x2069. split; [cbn; tauto|lia].
  - exists 0xFDD0, 0xFDEF. split; [cbn; tauto|lia].
  - exists (c / 0x10000 * 0x10000 + 0xFFFE), (c / 0x10000 * 0x10000 + 0xFFFF). split.
    + apply in_or_app. right. apply in_map_iff. exists (c / 0x10000). split; [reflexivity|].
      assert (H : c / 0x10000 < 17) by (apply N.div_lt_upper_bound; lia). set (k := c / 0x10000) in *. clearbody k. clear - H.
      assert (k = 0 \/ k = 1 \/ k = 2 \/ k = 3 \/ k = 4 \/ k = 5 \/ k = 6 \/ k = 7 \/ k = 8 \/ k = 9 \/ k = 10 \/ k = 11 \/ k = 12 \/ k = 13 \/ k = 14 \/ k = 15 \/ k = 16) by lia.
      cbn. intuition.
    + pose proof (N.div_mod' c 0x10000). pose proof (N.mod_lt c 0x10000 ltac:(lia)). lia.
  - exists 0xFFF9, 0xFFFC. split; [cbn; tauto|lia].
  - exists 0xFEFF, 0xFEFF. split; [cbn; tauto|lia].
Qed.
Lemma chk_not_text : ranges_all (fun c => negb (allowedb c)) tbl_not_text = true. Proof. vm_compute. reflexivity. Qed.
Theorem not_text_excluded : forall c, not_text c -> ~ allowed c.
Proof.
  intros c H A. apply not_text_tbl in H. apply (ranges_all_spec _ _ _ chk_not_text) in H. unfold allowedb in H. unfold allowed in A. now rewrite A in H.
Qed.

(** * Reading *)
Lemma read_scalar_text : forall nel lsps script sizes rs j rest, scalar_stream script -> reads (new_input nel lsps) script sizes = (rs, j, rest) -> scalars (delivered rs).
Proof. intros nel lsps script sizes rs j rest S H. exact (proj1 (reads_scalars _ _ _ _ _ _ (wf_new nel lsps) (scal_new nel lsps) S H)). Qed.
Theorem read_bytes : forall nel lsps script sizes rs j rest, scalar_stream script -> reads (new_input nel lsps) script sizes = (rs, j, rest) ->
  forall c, is_scalar c = true -> ~ allowed c -> ~ within (encode c) (encode_all (delivered rs)).
Proof.
  intros nel lsps script sizes rs j rest S H c C NA. apply bytes_allowed; auto; [exact (read_scalar_text _ _ _ _ _ _ _ S H)|].
  exact (proj2 (proj2 (session_allowed _ _ _ _ _ _ _ H))).
Qed.
Lemma plain_bytes : forall s, scalars s -> Forall allowed s -> forall b, In b (encode_all s) -> b < 0x20 \/ b = 0x7F -> b = 0x9 \/ b = 0xA.
Proof.
  intros s S A b I L. destruct (N.eq_dec b 0x9) as [|N1]; [now left|]. destruct (N.eq_dec b 0xA) as [|N2]; [now right|]. exfalso.
  apply (not_text_excluded b); [left; unfold control; lia|]. apply (proj1 (Forall_forall _ _) A). apply ascii_byte; [exact S|lia|exact I].
Qed.

(** * Lines *)
Lemma lines_of : forall s, line_terminated s -> exists ls, s = concat (map (fun l => l ++ [LF]) ls) /\ Forall (fun l => ~ In LF l) ls.
Proof.
  intros s H. assert (G : forall n s, (length s <= n)%nat -> line_terminated s -> exists ls, s = concat (map (fun l => l ++ [LF]) ls) /\ Forall (fun l => ~ In LF l) ls).
  { clear s H. induction n as [|n IH]; intros s L H.
    - destruct s; [|cbn in L; lia]. exists []. split; [reflexivity|constructor].
    - destruct (in_dec N.eq_dec LF s) as [I|I].
      + apply in_split in I. assert (F : exists a b, s = a ++ LF :: b /\ ~ In LF a).
        { clear - I. destruct I as (x & y & ->). clear. induction x as [|c x (a & b & E & K)]; [exists [], y; auto|].
          destruct (N.eq_dec c LF) as [-> |C]; [exists [], (x ++ LF :: y); auto|]. exists (c :: a), b. cbn. rewrite E. split; [reflexivity|]. intros [Q|Q]; [now apply C|contradiction]. }
        destruct F as (a & b & -> & K). destruct (IH b) as (ls & -> & F).
        * rewrite app_length in L. cbn in L. lia.
        * destruct b as [|x b _] using rev_ind; [now left|]. right. destruct H as [H|[t H]]; [destruct a; discriminate|].
          change (a ++ LF :: b ++ [x]) with (a ++ (LF :: b) ++ [x]) in H. rewrite app_assoc in H. apply app_inj_tail in H. destruct H as [_ ->]. eexists. reflexivity.
        * exists (a :: ls). cbn [map concat]. split; [now rewrite <- app_assoc|now constructor].
      + destruct H as [->|[t ->]]; [exists []; split; [reflexivity|constructor]|]. destruct I. apply in_or_app. right. now left. }
  exact (G (length s) s (le_n _) H).
Qed.
Theorem lines_bytes : forall s, scalars s -> line_terminated s -> Forall allowed s ->
  exists ls, s = concat (map (fun l => l ++ [0xA]) ls) /\ text_file (map encode_all ls) (encode_all s).
Proof.
  intros s S T A. destruct (lines_of s T) as (ls & E & F). exists ls. split; [exact E|].
  assert (SL : Forall (fun l => scalars l /\ Forall allowed l) ls).
  { apply Forall_forall. intros l I. rewrite E in S, A. split; apply Forall_forall; intros c IC;
      [apply (proj1 (Forall_forall _ _) S)|apply (proj1 (Forall_forall _ _) A)]; apply in_concat; exists (l ++ [LF]); (split; [apply in_map_iff; eauto|apply in_or_app; now left]). }
  split.
  - rewrite E. clear. induction ls as [|l ls IH]; [reflexivity|]. cbn [map concat]. rewrite encode_all_app, IH. rewrite encode_all_app. reflexivity.
  - apply Forall_forall. intros b I. apply in_map_iff in I. destruct I as (l & <- & I). destruct (proj1 (Forall_forall _ _) SL _ I) as [SC AL].
    pose proof (proj1 (Forall_forall _ _) F _ I) as NL. split.
    + intro K. apply NL. apply (encode_in_LF l SC). exact K.
    + intro K. destruct (plain_bytes l SC AL 0 K) as [Q|Q]; [left; lia|discriminate|discriminate].
Qed.
Theorem read_text_file : forall nel lsps script sizes rs j rest, scalar_stream script -> reads (new_input nel lsps) script sizes = (rs, j, rest) -> reached_end rs ->
  exists ls, delivered rs = concat (map (fun l => l ++ [0xA]) ls) /\ text_file (map encode_all ls) (encode_all (delivered rs)).
Proof.
  intros nel lsps script sizes rs j rest S H E. apply lines_bytes.
  - exact (read_scalar_text _ _ _ _ _ _ _ S H).
  - exact (proj2 (session_is_text_buffers _ _ _ _ _ _ _ H E)).
  - exact (proj2 (proj2 (session_allowed _ _ _ _ _ _ _ H))).
Qed.

(** * Writing *)
Lemma scalars_as_sent : forall cr s, scalars s -> scalars (as_sent cr s).
Proof.
  intros [|] s S; [|exact S]. cbn. apply Forall_forall. intros c I. unfold expand in I. apply in_flat_map in I. destruct I as (x & IX & I).
  pose proof (proj1 (Forall_forall _ _) S _ IX) as SX. destruct (x =? 10); cbn in I; [destruct I as [<-|[<-|[]]]; reflexivity|destruct I as [<-|[]]; exact SX].
Qed.
Lemma send_scalars : forall cr d t, scalars (sent d) -> scalars t -> scalars (sent (snd (spec_send cr d t))).
Proof.
  intros cr d t S T. unfold spec_send. destruct (_ && _); [exact S|]. destruct (outcomes d) as [|[|n] o]; cbn [snd sent]; apply Forall_app; split; try exact S;
    try (now apply scalars_as_sent). apply Forall_firstn. now apply scalars_as_sent.
Qed.
Lemma call_scalars : forall d, scalars (sent d) -> scalars (sent (snd (spec_call d))).
Proof. intros d S. unfold spec_call. now destruct (outcomes d) as [|[|n] o]. Qed.
Lemma write_scalars : forall cr d s, scalars (sent d) -> scalars s -> scalars (sent (snd (spec_write cr d s))).
Proof.
  intros cr d s S T. unfold spec_write. destruct (failed d); [exact S|]. destruct (forallb allowedb s); cbn [negb]; [|exact S].
  apply send_scalars; [exact S|]. now apply pipeline_scalars.
Qed.
Lemma op_sent_scalars : forall cr d o, scalars (sent d) -> op_scalars o -> scalars (sent (snd (spec_op cr d o))).
Proof.
  intros cr d o S T. destruct o as [s|s|bs| | |]; cbn [spec_op].
  - now apply write_scalars.
  - unfold spec_write_text. destruct (failed d); [exact S|]. now apply send_scalars.
  - pose proof (decode_spec bs) as D. destruct (decode bs) as [cs r]. assert (SC : scalars cs) by exact (proj1 (D _ _ eq_refl)).
    destruct cs as [|c cs], r as [|b r]; try (now apply write_scalars). exact S.
  - unfold spec_flush. destruct (failed d); [exact S|]. destruct (opt_all _ _); [now apply call_scalars|exact S].
  - unfold spec_close. destruct (failed d); [exact S|]. destruct (last_opt (text d)) as [c|]; [destruct (c =? 10)|]; try (now apply call_scalars); exact S.
  - exact S.
Qed.
Lemma ops_sent_scalars : forall os cr d, scalars (sent d) -> Forall op_scalars os -> scalars (sent (snd (spec_ops cr d os))).
Proof.
  induction os as [|o os IH]; intros cr d S T; [exact S|]. inversion T as [|? ? T1 T2]; subst. cbn [spec_ops]. pose proof (op_sent_scalars cr d o S T1) as K.
  destruct (spec_op cr d o) as [b d']. cbn [snd] in K. specialize (IH cr d' K T2). destruct (spec_ops cr d' os). exact IH.
Qed.
Theorem written_scalars : forall cr o ops rs w, do_ops (new_writer cr false (mksink [] o false)) ops = (rs, w) -> Forall plain_op ops -> Forall op_scalars ops -> scalars (emitted (inner w)).
Proof.
  intros cr o ops rs w H HP HS. destruct (ops_refine ops cr _ _ (new_refines cr [] o) HP) as [_ R]. rewrite H in R. cbn [snd] in R.
  destruct R as (_ & _ & _ & -> & _). apply ops_sent_scalars; [constructor|exact HS].
Qed.
Lemma sent_allowed : forall cr t c, Forall allowed t -> In c (as_sent cr t) -> allowed c \/ (cr = true /\ c = 0xD).
Proof.
  intros cr t c A I. destruct cr; cbn in I; [|left; exact (proj1 (Forall_forall _ _) A _ I)].
  unfold expand in I. apply in_flat_map in I. destruct I as (x & IX & I). pose proof (proj1 (Forall_forall _ _) A _ IX) as AX.
  destruct (N.eqb_spec x 10) as [-> |C]; cbn in I; [|destruct I as [<-|[]]; now left]. destruct I as [<-|[<-|[]]]; auto.
Qed.
Theorem written_bytes : forall cr o ops rs w, do_ops (new_writer cr false (mksink [] o false)) ops = (rs, w) -> Forall plain_op ops -> Forall op_scalars ops ->
  forall c, is_scalar c = true -> ~ allowed c -> within (encode c) (encode_all (emitted (inner w))) -> cr = true /\ c = 0xD.
Proof.
  intros cr o ops rs w H HP HS c C NA W. apply bytes_within in W; [|exact (written_scalars _ _ _ _ _ H HP HS)|exact C].
  destruct (writer_sends_allowed cr [] o ops rs w H HP) as (t & rest & A & E). cbn [app] in E.
  assert (I : In c (as_sent cr t)) by (rewrite E; apply in_or_app; now left). destruct (sent_allowed _ _ _ A I) as [K|K]; [contradiction|exact K].
Qed.
Theorem written_text_file : forall o ops rs w w', do_ops (new_writer false false (mksink [] o false)) ops = (rs, w) -> Forall plain_op ops -> Forall op_scalars ops ->
  close w = (None, w') -> exists ls, emitted (inner w') = concat (map (fun l => l ++ [0xA]) ls) /\ text_file (map encode_all ls) (encode_all (emitted (inner w'))).
Proof.
  intros o ops rs w w' H HP HS CL. destruct (closed_complete false [] o ops rs w w' H HP CL) as (E & T & A & _). cbn [app as_sent] in E.
  assert (S : scalars (emitted (inner w'))).
  { assert (H2 : do_ops (new_writer false false (mksink [] o false)) (ops ++ [OpClose]) = (rs ++ [None], w')).
    { clear - H CL. revert H. generalize (new_writer false false (mksink [] o false)). intro v. revert v rs. induction ops as [|p ops IH]; intros v rs H; cbn [do_ops app] in *.
      - injection H as <- <-. cbn [do_op]. rewrite CL. reflexivity.
      - destruct (do_op v p) as [r v']. destruct (do_ops v' ops) as [rs' v''] eqn:E. injection H as <- <-. rewrite (IH v' rs' E). reflexivity. }
    apply (written_scalars _ _ _ _ _ H2); apply Forall_app; split; auto; constructor; auto; exact I. }
  rewrite E in *. now apply lines_bytes.
Qed.
