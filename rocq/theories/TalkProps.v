(** Conversations between two duplexers (C103). *)
From Coq Require Import NArith Arith List Bool Lia ZifyBool ZifyNat ZifyN.
From Verif Require Import Base Chars TextUtils SpecText TextFacts Utf8 Utf8Facts Input Output SpecRead ReadFacts ReadInv ReadSession ReadProps ScalarFacts SpecWrite WriteFacts WriteProps WriteColour CopyProps Strings StringFacts SpecString StringProps
  Copy Duplex SpecDuplex DuplexProps DuplexExact SpecCat SpecPrompt PromptProps Talk SpecTalk.
Import ListNotations.
Local Open Scope N_scope.

(** * What is sent stays sent *)
Definition grows (w w' : writer) : Prop := exists u, emitted (inner w') = emitted (inner w) ++ u.
Lemma grows_same : forall w w', emitted (inner w') = emitted (inner w) -> grows w w'.
Proof. intros w w' E. exists []. now rewrite app_nil_r. Qed.
Lemma grows_trans : forall u v w, grows u v -> grows v w -> grows u w.
Proof. intros u v w [a A] [b B]. exists (a ++ b). now rewrite B, A, app_assoc. Qed.
Lemma sink_grows : forall k s b k', sink_write k s = (b, k') -> exists u, emitted k' = emitted k ++ u.
Proof.
  intros k s b k' H. unfold sink_write in H. destruct (abandoned k); [injection H as <- <-; exists []; now rewrite app_nil_r|].
  destruct (script k) as [|[|n] t]; injection H as <- <-; cbn; eauto.
Qed.
Lemma write_buffer_grows : forall w r w', write_buffer w = (r, w') -> grows w w'.
Proof.
  intros w r w' H. unfold write_buffer in H. destruct (expect w && _); [injection H as <- <-; now apply grows_same|].
  destruct (sink_write _ _) as [b k] eqn:E. destruct (sink_grows _ _ _ _ E) as [u U]. exists u. destruct b; injection H as <- <-; exact U.
Qed.
Lemma write_str_grows : forall w s r w', write_str w s = (r, w') -> grows w w'.
Proof.
  intros w s r w' H. unfold write_str, and_then in H. destruct (if crlf w then crlf_segs w (split_lf s) else state_machine w s) as [[e|] w1] eqn:E; destruct (first_phase _ _ _ _ E) as (_ & _ & G).
  - injection H as <- <-. now apply grows_same.
  - apply (grows_trans _ w1); [now apply grows_same|now apply write_buffer_grows in H].
Qed.
Lemma op_grows : forall w o r w', do_op w o = (r, w') -> grows w w'.
Proof.
  intros w o r w' H. destruct o as [s|s|bs| | |]; cbn [do_op] in H.
  - now apply write_str_grows in H.
  - unfold write_text in H. apply write_buffer_grows in H. revert H. match goal with |- grows ?x _ -> _ => assert (EI : inner x = inner w) end; [|unfold grows; now rewrite EI].
    destruct (crlf w); [|reflexivity]. destruct (split_lf s) as [|x l]; [reflexivity|].
    assert (G : forall l w, inner (fold_left (fun w seg => push_text_seg (push_crlf w) seg) l w) = inner w) by (intro m; induction m as [|y m IH]; intros v; [reflexivity|cbn [fold_left]; now rewrite IH]).
    now rewrite G.
  - unfold write_bytes in H. destruct (decode bs) as [cs rest]. destruct rest as [|b rest].
    + destruct (write_str w cs) as [r0 w0] eqn:E. assert (H' : (r0, w0) = (r, w')) by (destruct cs; exact H). injection H' as <- <-. now apply write_str_grows in E.
    + destruct cs as [|c cs]; [injection H as <- <-; now apply grows_same|]. destruct (write_str w (c :: cs)) as [r0 w0] eqn:E. injection H as <- <-. now apply write_str_grows in E.
  - unfold flush, sink_call in H. destruct (wst w) as [[]| |]; try (injection H as <- <-; now apply grows_same); destruct (sink_write _ _) as [b k] eqn:E; destruct (sink_grows _ _ _ _ E) as [u U]; injection H as <- <-; now exists u.
  - unfold close, and_then, check_nl, sink_call in H. cbn [set_exp wst] in H. destruct (wst w) as [[]| |]; try (injection H as <- <-; now apply grows_same).
    destruct (sink_write _ _) as [b k] eqn:E; destruct (sink_grows _ _ _ _ E) as [u U]; injection H as <- <-; now exists u.
  - injection H as <- <-. now apply grows_same.
Qed.
Lemma dop_grows : forall d o r d', do_dop d o = (r, d') -> grows (dout d) (dout d').
Proof.
  intros d o r d' H. destruct o as [b|o].
  - cbn [do_dop] in H. destruct (duplex_read d b) as [[x cs] d1] eqn:E. injection H as <- <-. unfold duplex_read in E. destruct (read _ _ _) as [[[y c] i] sc]. injection E as _ _ <-. cbn [dout].
    apply grows_same. destruct y as [n s| |]; try reflexivity. unfold newline. now destruct (_ && _).
  - destruct (match o with OpAbandon => true | _ => false end) eqn:A.
    + destruct o; try discriminate A. cbn [do_dop] in H. unfold duplex_abandon in H. destruct (abandon_input (din d)); injection H as <- <-; now apply grows_same.
    + destruct o; try discriminate A; cbn [do_dop] in H; destruct (do_op (dout d) _) as [x w] eqn:E; injection H as <- <-; cbn [dout]; now apply op_grows in E.
Qed.

(** * The script of one end *)
(** A read asks for at most one event. *)
Definition is_end (e : event) : bool := match e with Chunk _ End => true | _ => false end.
Lemma read_one : forall i e blen r cs j sc, read i [e] blen = (r, cs, j, sc) ->
  (sc = [e] /\ forall more, read i more blen = (r, cs, j, more)) \/
  (sc = [] /\ forall more, read i (e :: more) blen = (r, cs, j, if is_end e then [] else more)).
Proof.
  intros i e blen r cs j sc H. unfold read in *. destruct (Nat.ltb _ _); [injection H as <- <- <- <-; left; auto|]. destruct (drain blen blen i) as [[c1 e1] i1].
  destruct (negb e1); [injection H as <- <- <- <-; left; auto|]. destruct (negb (is_active _)); [injection H as <- <- <- <-; left; auto|]. right.
  destruct e as [c [| |]|]; cbn [inner_read is_end] in *; try (destruct (drain _ _ (finish _ _)) as [[c2 e2] i3]; destruct e2); injection H as <- <- <- <-; auto.
Qed.
Lemma read_none : forall i blen r cs j sc, read i [] blen = (r, cs, j, sc) -> sc = [].
Proof.
  intros i blen r cs j sc H. unfold read in *. destruct (Nat.ltb _ _); [now injection H|]. destruct (drain blen blen i) as [[c1 e1] i1].
  destruct (negb e1); [now injection H|]. destruct (negb (is_active _)); [now injection H|]. cbn [inner_read] in H. destruct (drain _ _ (finish _ _)) as [[c2 e2] i3]; destruct e2; now injection H.
Qed.
Lemma dops_snoc : forall os d o, do_dops d (os ++ [o]) = let '(rs, d1) := do_dops d os in let '(r, d2) := do_dop d1 o in (rs ++ [r], d2).
Proof.
  induction os as [|x os IH]; intros d o; cbn [app do_dops].
  - destruct (do_dop d o) as [r d2]. reflexivity.
  - destruct (do_dop d x) as [r d1]. rewrite IH. destruct (do_dops d1 os) as [rs d2]. destruct (do_dop d2 o) as [r' d3]. reflexivity.
Qed.
Lemma stream_more : forall sc more, existsb is_end sc = false -> stream_text (sc ++ more) = stream_text sc ++ stream_text more.
Proof.
  induction sc as [|e sc IH]; intros more H; [reflexivity|]. cbn [existsb] in H. apply orb_false_iff in H. destruct H as [H1 H2].
  destruct e as [c [| |]|]; cbn [is_end] in H1; try discriminate; cbn [app stream_text]; rewrite IH by exact H2; [apply app_assoc|apply app_assoc|reflexivity].
Qed.

(** The history of an end, and the events [sc] that it took from the connection. *)
Record follows (nel lsps cr an : bool) (o : list wout) (me other : side) (os : list dop) (rs : list dresult) (sc : list event) : Prop := {
  f_run : forall more, do_dops (new_duplexer nel lsps cr an (mksink [] o false) (sc ++ more)) os = (rs, mkduplexer (din (here me)) (dout (here me)) (if over me then [] else more));
  f_text : stream_text sc = firstn (taken me) (emitted (inner (dout (here other))));
  f_taken : (taken me <= length (emitted (inner (dout (here other)))))%nat;
  f_end : existsb is_end sc = over me;
  f_script : dscript (here me) = [] }.
Lemma follows_new : forall nel lsps cr an o other, follows nel lsps cr an o (new_side nel lsps cr an o) other [] [] [].
Proof. intros. split; try reflexivity. cbn. lia. Qed.
Lemma follows_other : forall nel lsps cr an o me other other' os rs sc, follows nel lsps cr an o me other os rs sc -> grows (dout (here other)) (dout (here other')) -> follows nel lsps cr an o me other' os rs sc.
Proof.
  intros nel lsps cr an o me other other' os rs sc [A B C D E] [u U]. split; auto; rewrite U; [|rewrite app_length; lia].
  rewrite firstn_app. replace (taken me - length _)%nat with 0%nat by lia. cbn [firstn]. now rewrite app_nil_r.
Qed.
Definition dop_of (t : top) : dop := match t with TRead n _ => DRead n | TOut o => DOut o end.
Lemma follows_step : forall nel lsps cr an o me other os rs sc t r me', follows nel lsps cr an o me other os rs sc -> side_step me other t = (r, me') ->
  grows (dout (here me)) (dout (here me')) /\ exists es, follows nel lsps cr an o me' other (os ++ [dop_of t]) (rs ++ [r]) (sc ++ es) /\
  (es = [] \/ exists e blen a, es = [e] /\ t = TRead blen a /\ offer me other a = [e]).
Proof.
  intros nel lsps cr an o me other os rs sc t r me' [A B C D E] H. destruct t as [blen a|op]; cbn [side_step dop_of] in *.
  - destruct (do_dop (mkduplexer (din (here me)) (dout (here me)) (offer me other a)) (DRead blen)) as [r0 d] eqn:ED. pose proof (dop_grows _ _ _ _ ED) as GR. cbn [dout] in GR.
    assert (ER : r = r0 /\ here me' = mkduplexer (din d) (dout d) []) by (destruct (dscript d); [destruct (offer me other a) as [|[c s|] [|y l]]|]; injection H as <- <-; auto). destruct ER as [-> EH]. rewrite EH.
    cbn [do_dop] in ED. unfold duplex_read in ED. cbn [din dout dscript] in ED.
    destruct (read (din (here me)) (offer me other a) blen) as [[[x cs] i] sc'] eqn:ER. injection ED as <- <-. cbn [din dout dscript] in *.
    set (w := match x with ROk n _ => _ | _ => _ end) in *. cbn [dout]. split; [exact GR|].
    assert (STEP : forall more more', read (din (here me)) more blen = (x, cs, i, more') -> do_dop (mkduplexer (din (here me)) (dout (here me)) more) (DRead blen) = (DGot x cs, mkduplexer i w more')).
    { intros more more' Q. cbn [do_dop]. unfold duplex_read. cbn [din dout dscript]. rewrite Q. reflexivity. }
    unfold offer in *. destruct (over me) eqn:OV.
    + pose proof (read_none _ _ _ _ _ _ ER) as ->. injection H as <-. exists []. rewrite app_nil_r. split; [|now left].
      split; cbn [here din dout dscript over taken]; auto. intro more. rewrite dops_snoc, A. rewrite (STEP _ _ ER). reflexivity.
    + set (e := match a with None => Fail | Some (n, s) => Chunk (firstn n (incoming me other)) (match s with End => if shut other && Nat.leb (length (incoming me other)) n then End else Active | s => s end) end).
      replace (match a with None => [Fail] | Some (n, s) => _ end) with [e] in * by (unfold e; destruct a as [[n s]|]; reflexivity).
      destruct (read_one _ _ _ _ _ _ _ ER) as [[-> Q]|[-> Q]].
      * assert (EM : me' = mkside (mkduplexer i w []) (taken me) false (shut me)) by (now injection H as <-). subst me'. exists []. rewrite app_nil_r. split; [|now left].
        split; cbn [here din dout dscript over taken]; auto. intro more. rewrite dops_snoc, A. rewrite (STEP _ _ (Q more)). reflexivity.
      * assert (EM : me' = mkside (mkduplexer i w []) (taken me + match e with Chunk c _ => length c | Fail => 0 end) (is_end e) (shut me)).
        { destruct e as [c [| |]|]; injection H as <-; cbn; rewrite ?OV, ?Nat.add_0_r; reflexivity. }
        subst me'. exists [e]. split; [|right; exists e, blen, a; split; [reflexivity|split; [reflexivity|unfold e; destruct a as [[n s]|]; reflexivity]]].
        assert (TX : stream_text [e] = match e with Chunk c _ => c | Fail => [] end) by (destruct e as [c [| |]|]; cbn; rewrite ?app_nil_r; reflexivity).
        assert (LE : exists v, incoming me other = stream_text [e] ++ v).
        { rewrite TX. unfold e. destruct a as [[n s]|]; [exists (skipn n (incoming me other)); now rewrite firstn_skipn|now exists (incoming me other)]. }
        destruct LE as [v LE]. unfold incoming in LE. assert (LN : match e with Chunk c _ => length c | Fail => 0%nat end = length (stream_text [e])) by (rewrite TX; now destruct e). rewrite LN.
        split; cbn [here din dout dscript over taken].
        -- intro more. rewrite <- app_assoc. cbn [app]. rewrite dops_snoc, A. rewrite (STEP _ _ (Q more)). reflexivity.
        -- rewrite stream_more, B by exact D. pose proof (firstn_length_le _ C) as LU. pose proof (firstn_skipn (taken me) (emitted (inner (dout (here other))))) as SP. rewrite LE in SP.
           set (u := firstn (taken me) (emitted (inner (dout (here other))))) in *. rewrite <- SP. rewrite app_assoc, <- LU, <- app_length. rewrite firstn_app, firstn_all, Nat.sub_diag. now rewrite app_nil_r.
        -- apply (f_equal (@length N)) in LE. rewrite skipn_length, app_length in LE. lia.
        -- rewrite existsb_app, D. cbn. now rewrite orb_false_r.
        -- reflexivity.
  - destruct (do_dop (here me) (DOut op)) as [r0 d] eqn:ED. injection H as <- <-. split; [exact (dop_grows _ _ _ _ ED)|]. exists []. rewrite app_nil_r. split; [|now left].
    assert (ALL : forall more, do_dop (mkduplexer (din (here me)) (dout (here me)) more) (DOut op) = (r0, mkduplexer (din d) (dout d) more) /\ dscript d = []).
    { intro more. destruct (match op with OpAbandon => true | _ => false end) eqn:AB.
      - destruct op; try discriminate AB. cbn [do_dop] in *. unfold duplex_abandon in *. cbn [din]. destruct (abandon_input (din (here me))); injection ED as <- <-; auto.
      - destruct op; try discriminate AB; cbn [do_dop dout din dscript] in *; destruct (do_op (dout (here me)) _) as [x w]; injection ED as <- <-; auto. }
    split; cbn [here over taken]; auto; [|apply (ALL [])]. intro more. rewrite dops_snoc, A. rewrite (proj1 (ALL _)). reflexivity.
Qed.
