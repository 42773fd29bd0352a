(** Exact reads into a TextSubstr whose characters are single bytes. *)
From Coq Require Import NArith Arith List Bool Lia.
From Verif Require Import Base Chars TextUtils Utf8 Utf8Facts Input ReadFacts ReadSession SpecText TextFacts SpecRead ReadProps SpecAscii AsciiProps ScalarFacts Copy CopyProps ExactProps.
Import ListNotations.
Local Open Scope N_scope.

(** A reader after some calls. *)
Definition reached (i : input) (sc : list event) : Prop :=
  exists nel lsps script sizes rs, reads (new_input nel lsps) script sizes = (rs, i, sc) /\ script_scalars script.
Lemma reached_new : forall nel lsps sc, script_scalars sc -> reached (new_input nel lsps) sc.
Proof. intros nel lsps sc H. exists nel, lsps, sc, [], []. auto. Qed.
Lemma reads_more : forall sizes i sc rs j sc1 b r cs k sc2, reads i sc sizes = (rs, j, sc1) -> read j sc1 b = (r, cs, k, sc2) -> reads i sc (sizes ++ [b]) = (rs ++ [(r, cs)], k, sc2).
Proof.
  induction sizes as [|x sizes IH]; intros i sc rs j sc1 b r cs k sc2 H R; cbn [reads app] in *.
  - injection H as <- <- <-. now rewrite R.
  - destruct (read i sc x) as [[[r0 cs0] i1] sc0]. destruct (reads i1 sc0 sizes) as [[rs1 j1] sc3] eqn:E. injection H as <- <- <-. now rewrite (IH _ _ _ _ _ _ _ _ _ _ E R).
Qed.
Lemma reached_step : forall i sc b r cs j sc', reached i sc -> read i sc b = (r, cs, j, sc') -> reached j sc' /\ substring_ok cs /\ scalars cs /\ wf i.
Proof.
  intros i sc b r cs j sc' (nel & lsps & script & sizes & rs & H & SS) R. pose proof (reads_more _ _ _ _ _ _ _ _ _ _ _ H R) as H2.
  split; [exists nel, lsps, script, (sizes ++ [b]), (rs ++ [(r, cs)]); auto|].
  destruct (reads_spec _ _ _ _ _ _ (wf_new nel lsps) H) as (W & _). split; [|split; [|exact W]].
  - destruct (session_allowed _ _ _ _ _ _ _ H2) as (S & _ & _). apply substr_spec. apply substr_spec in S. apply (substr_slice cs (delivered (rs ++ [(r, cs)]))); [|exact S].
    unfold delivered. rewrite flat_map_app. cbn [flat_map snd]. rewrite app_nil_r. exists (flat_map snd rs), []. now rewrite app_nil_r.
  - destruct (reads_scalars _ _ _ _ _ _ (wf_new nel lsps) (scal_new nel lsps) SS H2) as (SC & _). unfold delivered in SC. rewrite flat_map_app in SC. cbn [flat_map snd] in SC.
    rewrite app_nil_r in SC. now apply Forall_app in SC.
Qed.
Lemma read_fits : forall i sc b n s cs j sc', wf i -> read i sc b = (ROk n s, cs, j, sc') -> n = str_len cs /\ (n <= b)%nat.
Proof.
  intros i sc b n s cs j sc' W H. pose proof (read_count _ _ _ _ _ _ _ _ W H) as L. split; [exact L|]. subst n. destruct (read_spec _ _ _ _ _ _ _ W H) as (_ & _ & _ & C).
  destruct C as [C|[C|[C|(raw & s' & new & cs2 & C)]]]; decompose [and] C; try congruence; assumption.
Qed.
Lemma ascii_encode : forall s, Forall plain_ascii s -> encode_all s = s.
Proof.
  intros s H. induction H as [|c s HC H IH]; [reflexivity|]. cbn. unfold encode_all in IH. rewrite IH. unfold encode. unfold plain_ascii in HC.
  rewrite (proj2 (N.ltb_lt c 0x80)); [reflexivity|lia].
Qed.
Lemma ascii_skip : forall n s, Forall plain_ascii s -> Forall plain_ascii (skipn n s).
Proof. intros n s H. rewrite <- (firstn_skipn n s) in H. now apply Forall_app in H. Qed.
(** the rest of the buffer after a read *)
Lemma ascii_after : forall i sc t n s cs j sc', reached i sc -> Forall plain_ascii t -> read i sc (length t) = (ROk n s, cs, j, sc') ->
  n = str_len cs /\ (n <= length t)%nat /\ reached j sc' /\ firstn n (buffer_after (ROk n s) cs t) = encode_all cs /\ skipn n (buffer_after (ROk n s) cs t) = skipn n t /\
  decode (encode_all cs) = (cs, []) /\ decode (skipn n t) = (skipn n t, []) /\ is_basic_text_substr cs = true /\ is_basic_text_substr (skipn n t) = true.
Proof.
  intros i sc t n s cs j sc' RE P R. destruct (reached_step _ _ _ _ _ _ _ RE R) as (RJ & SO & SC & W). destruct (read_fits _ _ _ _ _ _ _ _ W R) as [L B].
  pose proof (ascii_skip n _ P) as PS. split; [exact L|]. split; [exact B|]. split; [exact RJ|].
  assert (LE : length (encode_all cs) = n) by (rewrite L; apply encode_all_length).
  assert (CL : clear_to_char_boundary (skipn n t) = skipn n t) by (rewrite <- (ascii_encode _ PS) at 1 2; apply clear_encoded, plain_scalars, PS).
  unfold buffer_after. rewrite CL. split; [|split; [|split; [|split; [|split]]]].
  - rewrite firstn_app, LE, Nat.sub_diag, firstn_O, app_nil_r. rewrite <- LE. apply firstn_all.
  - rewrite skipn_app, LE, Nat.sub_diag. rewrite <- LE at 1. rewrite skipn_all. reflexivity.
  - pose proof (decode_encode cs [] SC eq_refl) as D. now rewrite app_nil_r in D.
  - now apply plain_decode.
  - now apply substr_spec.
  - apply substr_spec. apply (plain_ok _ PS).
Qed.
Theorem ascii_exact : forall fuel i sc t e j sc', reached i sc -> Forall plain_ascii t -> default_exact fuel i sc t = Some (e, j, sc') ->
  e <> DefPanic /\ (e = DefOk -> exists u, read_exact false fuel i sc (length t) = Some (ExactOk, u, j, sc')) /\
  (e = DefEof -> exists u, read_exact false fuel i sc (length t) = Some (ExactEof, u, j, sc')).
Proof.
  induction fuel as [|f IH]; intros i sc t e j sc' RE P H.
  - destruct t; [|discriminate]. injection H as <- <- <-. split; [discriminate|]. split; [|discriminate]. intros _. now exists [].
  - destruct t as [|c t]; [injection H as <- <- <-; split; [discriminate|]; split; [|discriminate]; intros _; now exists []|]. cbn [default_exact] in H.
    set (b := c :: t) in *. rewrite exact_step by (cbn; lia).
    destruct (read i sc (length b)) as [[[r cs] i1] sc1] eqn:ER. destruct (std_result false r) as [[|n]| |] eqn:ES.
    + injection H as <- <- <-. split; [discriminate|]. split; [discriminate|]. intros _. now exists [].
    + destruct (std_ok _ _ _ ES) as [s ->].
      destruct (ascii_after _ _ _ _ _ _ _ _ RE P ER) as (L & B & RJ & F1 & F2 & D1 & D2 & B1 & B2). rewrite F1, F2, D1, D2, B1, B2 in H. cbn [andb] in H.
      destruct (IH _ _ _ _ _ _ RJ (ascii_skip _ _ P) H) as (K1 & K2 & K3). rewrite skipn_length in K2, K3. split; [exact K1|]. split.
      * intro E. destruct (K2 E) as [u ->]. now exists (cs ++ u).
      * intro E. destruct (K3 E) as [u ->]. now exists (cs ++ u).
    + injection H as <- <- <-. split; [discriminate|]. split; discriminate.
    + injection H as <- <- <-. split; [discriminate|]. split; discriminate.
Qed.
Lemma str_len_concat_texts : forall rs, Forall (fun r => exists n s, fst r = ROk n s /\ n = str_len (snd r)) rs -> str_len (concat (texts rs)) = str_len (delivered rs).
Proof.
  intros rs H. unfold texts, delivered. induction H as [|[r cs] rs (n & s & E & L) H IH]; [reflexivity|]. cbn [fst snd] in *. subst r. cbn [flat_map fst snd].
  rewrite str_len_app. destruct n; [destruct cs as [|x cs]; [exact IH|]|].
  - pose proof (utf8_len_pos x). cbn in L. lia.
  - cbn [app concat]. now rewrite str_len_app, IH.
Qed.
(** a read that fills the buffer is never the last one *)
Lemma full_not_end : forall i sc b cs j sc', reached i sc -> read i sc b <> (ROk b End, cs, j, sc').
Proof.
  intros i sc b cs j sc' RE R. destruct (reached_step _ _ _ _ _ _ _ RE R) as (_ & _ & _ & W). destruct (read_full _ _ _ _ _ _ _ W R) as (u & c & -> & HC).
  destruct RE as (nel & lsps & script & sizes & rs & H & _). pose proof (reads_more _ _ _ _ _ _ _ _ _ _ _ H R) as H2.
  destruct (session_is_text_buffers _ _ _ _ _ _ _ H2) as (_ & [E|[t E]]); [now exists rs, b, (u ++ [c])| |]; unfold delivered in E; rewrite flat_map_app in E; cbn [flat_map snd] in E; rewrite app_nil_r, app_assoc in E.
  - now destruct (flat_map snd rs ++ u).
  - apply app_inj_tail in E. destruct E as [_ ->]. lia.
Qed.
(** the variant that also gives the status *)
Theorem ascii_exact_status : forall fuel i sc t e j sc', reached i sc -> Forall plain_ascii t -> default_exact_status fuel i sc t = Some (e, j, sc') ->
  e <> StPanic /\ exists sizes rs, reads i sc sizes = (rs, j, sc') /\
  match e with
  | StOk s => str_len (delivered rs) = length t /\ s = Active /\ ~ reached_end rs
  | StEof => (str_len (delivered rs) < length t)%nat /\ reached_end rs
  | _ => ~ reached_end rs
  end.
Proof.
  induction fuel as [|f IH]; intros i sc t e j sc' RE P H.
  - destruct t; [|discriminate]. injection H as <- <- <-. split; [discriminate|]. exists [], []. split; [reflexivity|]. split; [reflexivity|]. split; [reflexivity|].
    intros (rs' & n & cs & E). now destruct rs'.
  - destruct t as [|c t]; [injection H as <- <- <-; split; [discriminate|]; exists [], []; split; [reflexivity|]; split; [reflexivity|]; split; [reflexivity|];
      intros (rs' & n & cs & E); now destruct rs'|]. cbn [default_exact_status] in H.
    set (b := c :: t) in *. destruct (read i sc (length b)) as [[[r cs] i1] sc1] eqn:ER.
    assert (SK : forall sizes rs j' k, reads i1 sc1 sizes = (rs, j', k) -> reads i sc (length b :: sizes) = ((r, cs) :: rs, j', k)) by (intros sizes rs j' k K; cbn [reads]; now rewrite ER, K).
    assert (NE : forall x y, ~ reached_end [(x, y)] \/ exists n, x = ROk n End).
    { intros x y. destruct x as [n [| |]| |]; try (right; now exists n); left; intros (rs' & m & cs' & E); destruct rs' as [|? [|? ?]]; cbn in E; congruence. }
    destruct r as [n s| |].
    + destruct (ascii_after _ _ _ _ _ _ _ _ RE P ER) as (L & B & RJ & F1 & F2 & D1 & D2 & B1 & B2). rewrite F1, F2, D1, D2, B1, B2 in H. cbn [andb] in H.
      destruct (is_end s) eqn:EE.
      * assert (s = End) as -> by (destruct s; now try discriminate). injection H as <- <- <-.
        assert (RN : reached_end [(ROk n End, cs)]) by (exists [], n, cs; reflexivity).
        destruct (skipn n b) as [|x y] eqn:EK; (split; [discriminate|]); exists [length b], [(ROk n End, cs)]; (split; [apply (SK [] []); reflexivity|]); unfold delivered; cbn [flat_map snd]; rewrite app_nil_r, <- L.
        -- apply (f_equal (@length N)) in EK. rewrite skipn_length in EK. cbn [length] in EK. exfalso. assert (n = length b) as -> by (clear - EK B; lia). exact (full_not_end _ _ _ _ _ _ RE ER).
        -- apply (f_equal (@length N)) in EK. rewrite skipn_length in EK. cbn [length] in EK. split; [clear - EK B; lia|exact RN].
      * destruct (IH _ _ _ _ _ _ RJ (ascii_skip _ _ P) H) as (K1 & sizes & rs & R & K2). split; [exact K1|]. exists (length b :: sizes), ((ROk n s, cs) :: rs). split; [now apply SK|].
        assert (RI : reached_end ((ROk n s, cs) :: rs) <-> reached_end rs).
        { split.
          - intros (rs' & m & c' & E). destruct rs' as [|x rs']; cbn in E; inversion E; subst; [discriminate EE|]. now exists rs', m, c'.
          - intros (rs' & m & c' & ->). now exists ((ROk n s, cs) :: rs'), m, c'. }
        assert (LD : str_len (delivered ((ROk n s, cs) :: rs)) = (n + str_len (delivered rs))%nat) by (unfold delivered; cbn [flat_map snd]; now rewrite str_len_app, <- L).
        rewrite skipn_length in K2. destruct e; rewrite ?LD, ?RI; try exact K2.
        -- destruct K2 as (Q1 & Q2 & Q3). split; [clear - Q1 B; lia|auto].
        -- destruct K2 as (Q1 & Q2). split; [clear - Q1 B; lia|auto].
    + injection H as <- <- <-. split; [discriminate|]. exists [length b], [(RInvalid, cs)]. split; [apply (SK [] []); reflexivity|]. destruct (NE RInvalid cs) as [N0|[n N0]]; [exact N0|discriminate].
    + injection H as <- <- <-. split; [discriminate|]. exists [length b], [(RErr, cs)]. split; [apply (SK [] []); reflexivity|]. destruct (NE RErr cs) as [N0|[n N0]]; [exact N0|discriminate].
Qed.

(** * The reader's own exact read with a status *)
Lemma status_step : forall f i sc room, (0 < room)%nat -> read_exact_status (S f) i sc room =
  (let '(r, cs, i', sc') := read i sc room in
   match r with
   | ROk n s => if is_end s then Some ((match (room - n)%nat with O => StOk s | _ => StEof end), cs, i', sc')
                else match read_exact_status f i' sc' (room - n) with Some (e, t, i'', sc'') => Some (e, cs ++ t, i'', sc'') | None => None end
   | _ => Some (StErr, [], i', sc')
   end).
Proof. intros f i sc room H. destruct room; [lia|reflexivity]. Qed.
Lemma not_end_nil : ~ reached_end [].
Proof. intros (rs' & n & cs & E). now destruct rs'. Qed.
Lemma end_cons : forall n s cs rs, is_end s = false -> (reached_end ((ROk n s, cs) :: rs) <-> reached_end rs).
Proof.
  intros n s cs rs EE. split.
  - intros (rs' & m & c' & E). destruct rs' as [|x rs']; cbn in E; inversion E; subst; [discriminate EE|]. now exists rs', m, c'.
  - intros (rs' & m & c' & ->). now exists ((ROk n s, cs) :: rs'), m, c'.
Qed.
Lemma reads_cons : forall i sc b r cs i1 sc1 sizes rs j k, read i sc b = (r, cs, i1, sc1) -> reads i1 sc1 sizes = (rs, j, k) -> reads i sc (b :: sizes) = ((r, cs) :: rs, j, k).
Proof. intros i sc b r cs i1 sc1 sizes rs j k R K. cbn [reads]. now rewrite R, K. Qed.
Lemma texts_cons : forall n s cs rs, n = str_len cs -> concat (texts ((ROk n s, cs) :: rs)) = cs ++ concat (texts rs).
Proof.
  intros n s cs rs L. unfold texts. cbn [flat_map fst snd]. destruct n; [|reflexivity]. destruct cs as [|x cs]; [reflexivity|]. pose proof (utf8_len_pos x). cbn in L. lia.
Qed.
Theorem own_exact_status : forall fuel i sc room e t j sc', reached i sc -> read_exact_status fuel i sc room = Some (e, t, j, sc') ->
  (exists sizes rs, reads i sc sizes = (rs, j, sc') /\ t = concat (texts rs) /\ (reached_end rs <-> e = StEof)) /\
  match e with
  | StOk s => s = Active /\ read_exact false fuel i sc room = Some (ExactOk, t, j, sc')
  | StEof => (str_len t < room)%nat
  | StErr => read_exact false fuel i sc room = Some (ExactErr, t, j, sc')
  | StPanic => False
  end.
Proof.
  induction fuel as [|f IH]; intros i sc room e t j sc' RE H.
  - destruct room; [|discriminate]. injection H as <- <- <- <-. split; [|now split]. exists [], []. split; [reflexivity|]. split; [reflexivity|].
    split; [intro K; now apply not_end_nil in K|discriminate].
  - destruct (Nat.eq_dec room 0) as [->|NZ].
    + injection H as <- <- <- <-. split; [|now split]. exists [], []. split; [reflexivity|]. split; [reflexivity|]. split; [intro K; now apply not_end_nil in K|discriminate].
    + rewrite status_step in H by lia. rewrite exact_step by lia. destruct (read i sc room) as [[[r cs] i1] sc1] eqn:ER.
      destruct (reached_step _ _ _ _ _ _ _ RE ER) as (RJ & _ & _ & W). destruct r as [n s| |].
      * destruct (read_fits _ _ _ _ _ _ _ _ W ER) as [L B]. destruct (is_end s) eqn:EE.
        -- assert (s = End) as -> by (destruct s; now try discriminate). destruct (room - n)%nat as [|m] eqn:EK.
           ++ exfalso. assert (n = room) as -> by (clear - EK B; lia). exact (full_not_end _ _ _ _ _ _ RE ER).
           ++ injection H as <- <- <- <-. split; [|clear - EK L; lia]. exists [room], [(ROk n End, cs)]. split; [now apply (reads_cons _ _ _ _ _ i1 sc1)|].
              split; [rewrite texts_cons by exact L; symmetry; apply app_nil_r|]. split; [reflexivity|]. intros _. now exists [], n, cs.
        -- destruct (read_exact_status f i1 sc1 (room - n)) as [[[[e1 t1] i2] sc2]|] eqn:EX; [|discriminate]. injection H as -> <- -> ->.
           destruct (IH _ _ _ _ _ _ _ RJ EX) as ((sizes & rs & R & -> & K1) & K2). split.
           ++ exists (room :: sizes), ((ROk n s, cs) :: rs). split; [now apply (reads_cons _ _ _ _ _ i1 sc1)|]. split; [now rewrite texts_cons|]. now rewrite end_cons.
           ++ assert (PL : forall e', read_exact false f i1 sc1 (room - n) = Some (e', concat (texts rs), j, sc') ->
                match std_result false (ROk n s) with
                | SOk O => Some (ExactEof, [], i1, sc1)
                | SOk n => match read_exact false f i1 sc1 (room - n) with Some (e, t, i'', sc'') => Some (e, cs ++ t, i'', sc'') | None => None end
                | SInterrupted => read_exact false f i1 sc1 room
                | SErr => Some (ExactErr, [], i1, sc1)
                end = Some (e', cs ++ concat (texts rs), j, sc')).
              { intros e' P. destruct n as [|n].
                - assert (cs = []) as -> by (destruct cs as [|x cs]; [reflexivity|]; pose proof (utf8_len_pos x) as Q; cbn in L; clear - L Q; lia). rewrite Nat.sub_0_r in P. destruct s; [exact P|exact P|discriminate EE].
                - cbn [std_result]. destruct s; now rewrite P. }
              destruct e; try exact K2.
              ** destruct K2 as [-> K2]. split; [reflexivity|]. now apply PL.
              ** rewrite str_len_app, <- L. clear - K2 B. lia.
              ** now apply PL.
      * injection H as <- <- <- <-. split; [|reflexivity]. exists [room], [(RInvalid, cs)]. split; [now apply (reads_cons _ _ _ _ _ i1 sc1)|]. split; [reflexivity|].
        split; [|discriminate]. intros (rs' & m & c' & E). destruct rs' as [|? [|? ?]]; cbn in E; congruence.
      * injection H as <- <- <- <-. split; [|reflexivity]. exists [room], [(RErr, cs)]. split; [now apply (reads_cons _ _ _ _ _ i1 sc1)|]. split; [reflexivity|].
        split; [|discriminate]. intros (rs' & m & c' & E). destruct rs' as [|? [|? ?]]; cbn in E; congruence.
Qed.
(** nothing is delivered after the end *)
Lemma reads_both : forall sizes i sc rs i1 sc1 sizes2 rs2 j k, reads i sc sizes = (rs, i1, sc1) -> reads i1 sc1 sizes2 = (rs2, j, k) -> reads i sc (sizes ++ sizes2) = (rs ++ rs2, j, k).
Proof.
  induction sizes as [|b sizes IH]; intros i sc rs i1 sc1 sizes2 rs2 j k H K; cbn [reads app] in *; [now injection H as <- <- <-|].
  destruct (read i sc b) as [[[r cs] i0] sc0]. destruct (reads i0 sc0 sizes) as [[rs0 j0] k0] eqn:E. injection H as <- <- <-. now rewrite (IH _ _ _ _ _ _ _ _ _ E K).
Qed.
Lemma texts_none : forall rs, delivered rs = [] -> concat (texts rs) = [].
Proof.
  induction rs as [|[r cs] rs IH]; intro H; [reflexivity|]. unfold delivered in H. cbn [flat_map snd] in H. apply app_eq_nil in H. destruct H as [-> H]. specialize (IH H).
  unfold texts in *. cbn [flat_map fst snd]. destruct r as [[|n] s| |]; exact IH.
Qed.
Lemma nothing_after : forall i sc b n cs i1 sc1 sizes rs j k, reached i sc -> read i sc b = (ROk n End, cs, i1, sc1) -> reads i1 sc1 sizes = (rs, j, k) -> delivered rs = [].
Proof.
  intros i sc b n cs i1 sc1 sizes rs j k (nel & lsps & script & sz & rs0 & H & _) R K. pose proof (reads_more _ _ _ _ _ _ _ _ _ _ _ H R) as H1. pose proof (reads_both _ _ _ _ _ _ _ _ _ _ H1 K) as H2.
  destruct (proj1 (sizes_do_not_matter _ _ _ _ _ _ _ _ _ _ _ H1 H2 (ex_intro _ rs0 (ex_intro _ n (ex_intro _ cs eq_refl))))) as [more E].
  unfold delivered in E at 2. rewrite flat_map_app in E. fold (delivered (rs0 ++ [(ROk n End, cs)])) in E. fold (delivered rs) in E. rewrite <- (app_nil_r (delivered (rs0 ++ _))) in E at 1. rewrite <- app_assoc in E.
  apply app_inv_head in E. symmetry in E. now apply app_eq_nil in E.
Qed.
Theorem own_exact_status_complete : forall fuel i sc room t j sc', reached i sc -> read_exact false fuel i sc room = Some (ExactOk, t, j, sc') ->
  read_exact_status fuel i sc room = Some (StOk Active, t, j, sc').
Proof.
  induction fuel as [|f IH]; intros i sc room t j sc' RE H; [destruct room; [|discriminate]; now injection H as <- <- <-|].
  destruct (Nat.eq_dec room 0) as [->|NZ]; [now injection H as <- <- <-|]. rewrite status_step by lia. rewrite exact_step in H by lia. destruct (read i sc room) as [[[r cs] i1] sc1] eqn:ER.
  destruct (reached_step _ _ _ _ _ _ _ RE ER) as (RJ & _ & _ & W). pose proof (read_wf _ _ _ _ _ _ _ W ER) as W1. destruct r as [n s| |]; [|discriminate|discriminate].
  destruct (read_fits _ _ _ _ _ _ _ _ W ER) as [L B].
  assert (NF : n <> 0%nat \/ s <> End) by (destruct n as [|n]; [|left; discriminate]; right; intros ->; discriminate).
  assert (ST : exists u, t = cs ++ u /\ read_exact false f i1 sc1 (room - n) = Some (ExactOk, u, j, sc')).
  { destruct n as [|n].
    - assert (cs = []) as -> by (destruct cs as [|x cs]; [reflexivity|]; pose proof (utf8_len_pos x) as Q; cbn in L; clear - L Q; lia). exists t. rewrite Nat.sub_0_r. split; [reflexivity|]. destruct s; [exact H|exact H|]. destruct NF; congruence.
    - cbn [std_result] in H. destruct (read_exact false f i1 sc1 (room - S n)) as [[[[e u] i2] sc2]|] eqn:EX; [|destruct s; discriminate]. exists u. destruct s; injection H as -> <- <- <-; auto. }
  destruct ST as (u & -> & EX). destruct (is_end s) eqn:EE; [|now rewrite (IH _ _ _ _ _ _ RJ EX)].
  exfalso. assert (s = End) as -> by (destruct s; now try discriminate).
  destruct (Nat.eq_dec n room) as [->|NR]; [exact (full_not_end _ _ _ _ _ _ RE ER)|].
  destruct (exact_reads _ _ _ _ _ _ _ _ _ W1 EX) as (sizes & rs & R & ->). pose proof (exact_length _ _ _ _ _ _ _ _ W1 EX) as LN.
  rewrite (texts_none _ (nothing_after _ _ _ _ _ _ _ _ _ _ _ RE ER R)) in LN. cbn in LN. clear - LN B NR. lia.
Qed.
(** it comes to an end *)
Lemma status_unfinished : forall fuel i sc room, read_exact_status fuel i sc room = None ->
  exists sizes rs j k, length sizes = fuel /\ legal_sizes sizes /\ reads i sc sizes = (rs, j, k) /\ forall n cs, ~ In (ROk n End, cs) rs.
Proof.
  induction fuel as [|f IH]; intros i sc room H; [exists [], [], i, sc; split; [reflexivity|]; split; [constructor|]; split; [reflexivity|]; intros n cs []|].
  destruct (Nat.eq_dec room 0) as [->|NZ]; [discriminate|]. rewrite status_step in H by lia. destruct (read i sc room) as [[[r cs] i1] sc1] eqn:ER.
  destruct r as [n s| |]; [|discriminate|discriminate]. destruct (is_end s) eqn:EE; [discriminate|].
  destruct (read_exact_status f i1 sc1 (room - n)) as [[[[e u] i2] sc2]|] eqn:EX; [discriminate|]. destruct (IH _ _ _ EX) as (sizes & rs & j & k & L & LS & R & NE).
  exists (room :: sizes), ((ROk n s, cs) :: rs), j, k. split; [cbn; now rewrite L|]. split; [constructor; [|exact LS]|].
  - unfold read in ER. destruct (Nat.ltb room NORMALIZATION_BUFFER_SIZE) eqn:E; [discriminate|]. apply Nat.ltb_ge in E. unfold NORMALIZATION_BUFFER_SIZE, MAX_UTF8_SIZE, NORMALIZATION_BUFFER_LEN in E. cbn in E. exact E.
  - split; [now apply (reads_cons _ _ _ _ _ i1 sc1)|]. intros m c [K|K]; [inversion K; subst; discriminate|exact (NE _ _ K)].
Qed.
Theorem own_status_ends : forall nel lsps script room, exists n, forall fuel, (n <= fuel)%nat -> read_exact_status fuel (new_input nel lsps) script room <> None.
Proof.
  intros nel lsps script room. destruct (session_terminates nel lsps script) as [n T]. exists n. intros fuel F H. destruct (status_unfinished _ _ _ _ H) as (sizes & rs & j & k & L & LS & R & NE).
  destruct (T sizes LS) as (m & rs1 & j1 & k1 & R1 & (rs2 & x & cs & E)); [clear - L F; lia|].
  rewrite <- (firstn_skipn m sizes) in R. destruct (reads j1 k1 (skipn m sizes)) as [[rs3 j3] k3] eqn:E3. rewrite (reads_both _ _ _ _ _ _ _ _ _ _ R1 E3) in R. injection R as <- _ _. subst rs1.
  apply (NE x cs). apply in_or_app. left. apply in_or_app. right. now left.
Qed.
