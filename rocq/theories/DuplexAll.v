(** Reading all the text through a duplexer (C101). *)
From Coq Require Import NArith Arith List Bool Lia ZifyBool ZifyNat ZifyN.
From Verif Require Import Base Chars TextUtils SpecText TextFacts Utf8 Utf8Facts Input Output SpecRead ReadFacts ReadInv ReadSession ReadProps ScalarFacts ByteProps CopyProps Strings StringFacts SpecString StringProps LossyProps
  Copy Duplex SpecDuplex DuplexProps DuplexExact StdIo StdBuf BufProps StdAdapt AdaptProps SpecCat Sizes SizeProps StdRead SpecWhole WholeProps StdDuplex.
Import ListNotations.
Local Open Scope N_scope.

(** * The reader's loop *)
Definition reader_of (d : duplexer) : text_reader := mkreader (din d) (dscript d).
Lemma dgo_reader : forall f minimum suggested len start d buf,
  to_end_go f minimum suggested len start (reader_of d) buf = option_map (fun x => (fst x, reader_of (snd x))) (duplex_to_end_go f minimum suggested len start d buf).
Proof.
  induction f as [|f IH]; intros minimum suggested len start d buf; [reflexivity|]. cbn [to_end_go duplex_to_end_go state_of stream_of reader_of].
  destruct (duplex_read d len) as [[r cs] d'] eqn:E. rewrite (duplex_read_reader _ _ _ _ _ E). destruct r as [n s| |]; [|reflexivity|reflexivity].
  specialize (IH minimum suggested (if Nat.ltb (len - n) minimum then len - n + suggested else len - n)%nat start d' (buf ++ encode_all cs)).
  destruct s; [exact IH|exact IH|reflexivity].
Qed.
Lemma suggested_same : forall a b, duplexer_suggested a b = reader_suggested a b.
Proof. intros. unfold duplexer_suggested, writer_suggested, reader_suggested. lia. Qed.
Lemma to_end_reader : forall f a b d buf, read_to_end f a b (reader_of d) buf = option_map (fun x => (fst x, reader_of (snd x))) (duplex_to_end f a b d buf).
Proof. intros. unfold read_to_end, duplex_to_end. rewrite suggested_same. apply dgo_reader. Qed.

(** * The writer *)
Lemma newline_false : forall w, newline w false = w.
Proof. reflexivity. Qed.
Lemma newline_or : forall w a b, newline (newline w a) b = newline w (a || b).
Proof. intros w [|] [|]; reflexivity. Qed.
Lemma duplex_read_out : forall d len r cs d', wf (din d) -> duplex_read d len = (r, cs, d') -> exists b, dout d' = newline (dout d) b /\
  match r with ROk n s => (cs = [] -> b = false) /\ (last_opt cs = Some LF -> b = true) | _ => b = false end.
Proof.
  intros d len r cs d' W H. unfold duplex_read in H. destruct (read (din d) (dscript d) len) as [[[r0 cs0] i] sc] eqn:R. injection H as <- <- <-. cbn [dout].
  destruct r0 as [n s| |]; [|now exists false|now exists false]. pose proof (read_count _ _ _ _ _ _ _ _ W R) as ->. eexists. split; [reflexivity|]. split; [intros ->; reflexivity|]. intro L. rewrite L.
  destruct cs0 as [|c cs0]; [discriminate|]. rewrite N.eqb_refl, andb_true_r. cbn [str_len]. pose proof (utf8_len_pos c) as P. destruct (Nat.eqb_spec (utf8_len c + str_len cs0)%nat 0); [lia|reflexivity].
Qed.
Lemma last_nonempty : forall (a b : list N), b <> [] -> last_opt (a ++ b) = last_opt b.
Proof. intros a b. destruct b as [|x b _] using rev_ind; [easy|]. intros _. now rewrite app_assoc, !last_opt_snoc. Qed.
Lemma dgo_spec : forall f nel lsps script minimum suggested len start d ns xs buf r d', (136 <= minimum <= suggested)%nat -> (minimum <= len)%nat -> reached nel lsps script (reader_of d) ns xs ->
  duplex_to_end_go f minimum suggested len start d buf = Some (r, d') ->
  (r = Broken <-> fails_early (dscript d)) /\ (exists b, dout d' = newline (dout d) b) /\
  forall n bs, r = Whole n bs -> exists u b ns' xs', reached nel lsps script (reader_of d') ns' xs' /\ reached_end xs' /\ delivered xs' = delivered xs ++ u /\ bs = buf ++ encode_all u /\ n = (length bs - start)%nat /\
    dout d' = newline (dout d) b /\ (u = [] -> b = false) /\ (last_opt u = Some LF -> b = true).
Proof.
  induction f as [|f IH]; intros nel lsps script minimum suggested len start d ns xs buf r d' M L R H; [discriminate|]. cbn [duplex_to_end_go] in H. destruct (duplex_read d len) as [[x cs] d1] eqn:E.
  assert (W : wf (din d)) by exact (proj1 (proj2 (proj2 R))). destruct (duplex_read_out _ _ _ _ _ W E) as (b1 & O1 & K). pose proof (duplex_read_reader _ _ _ _ _ E) as ER. assert (L1 : (136 <= len)%nat) by lia.
  destruct (reached_step _ _ _ _ _ _ _ _ _ _ _ R L1 ER) as (R1 & PR & CN). destruct (read_early _ _ _ _ _ _ _ W L1 ER) as [E1 E2].
  assert (DX : delivered (xs ++ [(x, cs)]) = delivered xs ++ cs) by (rewrite delivered_app; cbn [delivered flat_map snd]; now rewrite app_nil_r).
  destruct x as [n s| |].
  - destruct K as [K1 K2].
    assert (S : (s = End /\ r = Whole (length (buf ++ encode_all cs) - start) (buf ++ encode_all cs) /\ d' = d1) \/ (s <> End /\ duplex_to_end_go f minimum suggested (grown minimum suggested (len - n)) start d1 (buf ++ encode_all cs) = Some (r, d'))).
    { destruct s; [right; split; [discriminate|exact H]|right; split; [discriminate|exact H]|left; injection H as <- <-; auto]. }
    destruct S as [(-> & -> & ->)|(NE & G)].
    + split; [|split; [now exists b1|]].
      * split; [discriminate|]. intro F. destruct (E1 F) as [X|[(a & b & X & NE) _]]; [discriminate|]. injection X as _ <-. now destruct NE.
      * intros m bs X. injection X as <- <-. exists cs, b1, (ns ++ [len]), (xs ++ [(ROk n End, cs)]). split; [exact R1|]. split; [now exists xs, n, cs|]. split; [exact DX|]. auto.
    + destruct (IH _ _ _ _ _ _ _ _ _ _ _ _ _ M (grown_ok _ suggested (len - n) (proj2 M)) R1 G) as (A & (b2 & OB) & B). split; [|split].
      * rewrite A. split; intro F; [destruct (early_dec (dscript d)) as [X|X]; [exact X|]; now destruct (proj2 (E2 X))|now destruct (E1 F) as [X|[_ X]]].
      * exists (b1 || b2). now rewrite OB, O1, newline_or.
      * intros m bs X. destruct (B _ _ X) as (u & b3 & ns' & xs' & R2 & RE & DV & EB & EN & O3 & N3 & L3). exists (cs ++ u), (b1 || b3), ns', xs'. split; [exact R2|]. split; [exact RE|].
        split; [rewrite DV, DX; apply eq_sym, app_assoc|]. split; [rewrite EB, encode_all_app; apply eq_sym, app_assoc|]. split; [exact EN|]. split; [now rewrite O3, O1, newline_or|].
        split; [intro Z; apply app_eq_nil in Z; destruct Z as [Z Y]; now rewrite (K1 Z), (N3 Y)|].
        intro Z. destruct u as [|c u]; [rewrite app_nil_r in Z; now rewrite (K2 Z)|]. rewrite last_nonempty in Z by discriminate. rewrite (L3 Z). apply orb_true_r.
  - injection H as <- <-. split; [|split; [now exists b1|discriminate]]. split; [|auto]. intros _. destruct (early_dec (dscript d)) as [X|X]; [exact X|]. destruct (E2 X) as ((a & b & Y) & _). discriminate.
  - injection H as <- <-. split; [|split; [now exists b1|discriminate]]. split; [|auto]. intros _. destruct (early_dec (dscript d)) as [X|X]; [exact X|]. destruct (E2 X) as ((a & b & Y) & _). discriminate.
Qed.

(** * After a history *)
Lemma reached_reads : forall sizes nel lsps script t ns xs rs i sc, reached nel lsps script t ns xs -> reads (state_of t) (stream_of t) sizes = (rs, i, sc) ->
  exists ns' xs', reached nel lsps script (mkreader i sc) ns' xs' /\ delivered xs' = delivered xs ++ delivered rs.
Proof.
  induction sizes as [|n sizes IH]; intros nel lsps script t ns xs rs i sc R H; cbn [reads] in H.
  - injection H as <- <- <-. exists ns, xs. destruct t. split; [exact R|]. cbn. now rewrite app_nil_r.
  - destruct (read (state_of t) (stream_of t) n) as [[[r cs] j] sc1] eqn:E. destruct (reads j sc1 sizes) as [[rs' j'] sc'] eqn:E2. injection H as <- <- <-.
    destruct (Nat.ltb_spec n 136) as [L|L].
    + unfold read in E. rewrite nbs_136 in E. destruct (Nat.ltb_spec n 136) as [_|]; [|lia]. injection E as <- <- <- <-. exact (IH _ _ _ _ _ _ _ _ _ R E2).
    + destruct (reached_step _ _ _ _ _ _ _ _ _ _ _ R L E) as (R1 & _). destruct (IH _ _ _ _ _ _ _ _ _ R1 E2) as (ns' & xs' & R2 & D). exists ns', xs'. split; [exact R2|].
      rewrite D, delivered_app, <- app_assoc. f_equal. cbn [delivered flat_map snd app]. now rewrite app_nil_r.
Qed.
Theorem duplex_all : forall nel lsps cr an k sc os rs x fuel a b buf r x', do_dops (new_duplexer nel lsps cr an k sc) os = (rs, x) -> Forall (fun o => o <> DOut OpAbandon) os ->
  duplex_to_end fuel a b x buf = Some (r, x') -> (r = Broken <-> fails_early (dscript x)) /\
  forall n bs, r = Whole n bs -> exists text, gives nel lsps sc (delivered (read_results rs) ++ text) /\ bs = buf ++ encode_all text /\ n = str_len text /\
    (text = [] -> dout x' = dout x) /\ (text <> [] -> dout x' = set_wst (dout x) (WGround Newline)).
Proof.
  intros nel lsps cr an k sc os rs x fuel a b buf r x' H F T. pose proof (duplex_reads _ _ _ _ H F) as RD. cbn [din dscript new_duplexer] in RD.
  destruct (reached_reads _ _ _ _ _ _ _ _ _ _ (reached_new nel lsps sc) RD) as (ns & xs & R & D). cbn [delivered flat_map app] in D. fold (delivered (read_results rs)) in D.
  assert (M : (136 <= minimum_buffer_size a <= duplexer_suggested a b)%nat) by (rewrite suggested_same; apply sizes_legal).
  destruct (dgo_spec _ _ _ _ _ _ _ _ _ _ _ _ _ _ M (proj2 M) R T) as (A & _ & B). split; [exact A|]. intros n bs X.
  destruct (B _ _ X) as (u & bb & ns' & xs' & R2 & RE & DV & -> & -> & O & N0 & NL). destruct R2 as (_ & RD2 & _). exists u. rewrite <- D, <- DV.
  split; [exists ns', xs', (din x'), (dscript x'); auto|]. split; [reflexivity|]. split; [rewrite app_length, encode_all_length; lia|]. split; [intros ->; now rewrite O, N0|].
  intro NE. rewrite O, NL; [reflexivity|]. destruct (session_is_text_buffers _ _ _ _ _ _ _ RD2 RE) as [_ [LT|(v & LT)]]; [rewrite DV in LT; apply app_eq_nil in LT; now destruct NE|].
  rewrite <- (last_nonempty (delivered xs) u NE), <- DV, LT, last_opt_snoc. reflexivity.
Qed.
Lemma dmore_fuel : forall f minimum suggested len start d buf r, duplex_to_end_go f minimum suggested len start d buf = Some r -> forall f', (f <= f')%nat -> duplex_to_end_go f' minimum suggested len start d buf = Some r.
Proof.
  induction f as [|f IH]; intros minimum suggested len start d buf r H f' L; [discriminate|]. destruct f' as [|f']; [lia|]. cbn [duplex_to_end_go] in *.
  destruct (duplex_read d len) as [[x cs] d1]. destruct x as [n s| |]; [|exact H|exact H]. assert (L1 : (f <= f')%nat) by lia. destruct s; [exact (IH _ _ _ _ _ _ _ H _ L1)|exact (IH _ _ _ _ _ _ _ H _ L1)|exact H].
Qed.
Theorem duplex_all_total : forall nel lsps cr an k sc os rs x a b buf, do_dops (new_duplexer nel lsps cr an k sc) os = (rs, x) -> Forall (fun o => o <> DOut OpAbandon) os ->
  exists n r x', forall fuel, (n <= fuel)%nat -> duplex_to_end fuel a b x buf = Some (r, x').
Proof.
  intros nel lsps cr an k sc os rs x a b buf H F. pose proof (duplex_reads _ _ _ _ H F) as RD. cbn [din dscript new_duplexer] in RD.
  destruct (reached_reads _ _ _ _ _ _ _ _ _ _ (reached_new nel lsps sc) RD) as (ns & xs & R & _). pose proof (sizes_legal a b) as M.
  destruct (go_ends (S (measure (din x) (dscript x))) nel lsps sc _ _ _ (length buf) (reader_of x) ns xs buf M (proj2 M) R (le_n _)) as (r & t' & G).
  rewrite dgo_reader in G. destruct (duplex_to_end_go (S (measure (din x) (dscript x))) (minimum_buffer_size a) (reader_suggested a b) (reader_suggested a b) (length buf) x buf) as [[r0 x']|] eqn:E; [|discriminate].
  exists (S (measure (din x) (dscript x))), r0, x'. intros fuel L. unfold duplex_to_end. rewrite suggested_same. exact (dmore_fuel _ _ _ _ _ _ _ _ E _ L).
Qed.
(** * Vectored reads *)
Theorem vectored_first : forall t lens, (forall a n b, lens = a ++ n :: b -> Forall (fun m => m = 0)%nat a -> (0 < n)%nat -> vectored_read t lens = std_read t n).
Proof.
  intros t lens a n b -> F N0. unfold vectored_read. f_equal. induction a as [|m a IH]; cbn [app filter].
  - destruct (Nat.eqb_spec n 0); [lia|reflexivity].
  - pose proof (Forall_inv F) as E. cbv beta in E. subst m. cbn [Nat.eqb negb]. apply IH. now inversion F.
Qed.
Theorem vectored_short : forall t lens, (forall a n b, lens = a ++ n :: b -> Forall (fun m => m = 0)%nat a -> (n < 136)%nat) -> vectored_read t lens = (BErr, t).
Proof.
  intros t lens H. assert (L : (match filter (fun n => negb (Nat.eqb n 0)) lens with n :: _ => n | [] => 0 end < 136)%nat).
  { assert (G : forall c a, lens = a ++ c -> Forall (fun m => m = 0)%nat a -> (match filter (fun n => negb (Nat.eqb n 0)) c with n :: _ => n | [] => 0 end < 136)%nat); [|now apply (G lens [])].
    induction c as [|n c IH]; intros a E F; cbn [filter]; [lia|]. destruct (Nat.eqb_spec n 0) as [->|Z]; cbn [negb]; [|exact (H a n c E F)].
    apply (IH (a ++ [0%nat])); [now rewrite <- app_assoc|]. apply Forall_app. split; [exact F|]. now apply Forall_cons. }
  unfold vectored_read. set (n := match filter _ lens with n :: _ => n | [] => 0%nat end) in *. clearbody n.
  unfold std_read, read. rewrite nbs_136. destruct (Nat.ltb_spec n 136); [|lia]. cbn. now destruct t.
Qed.
