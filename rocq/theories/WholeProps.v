(** Reading all the text (C99). *)
From Coq Require Import NArith Arith List Bool Lia ZifyBool ZifyNat ZifyN.
From Verif Require Import Base Chars TextUtils SpecText TextFacts Utf8 Utf8Facts Input SpecRead ReadFacts ReadInv ReadSession ReadProps ScalarFacts ByteProps CopyProps Strings StringFacts SpecString StringProps JoinProps LossyProps
  Copy StdIo StdBuf BufProps StdAdapt AdaptProps SpecCat Sizes SizeProps StdRead SpecWhole.
Import ListNotations.
Local Open Scope N_scope.

(** * One read *)
Lemma early_nil : ~ fails_early [].
Proof. intros (a & b & E & _). destruct a; discriminate. Qed.
Lemma early_fail : forall t, fails_early (Fail :: t).
Proof. intro t. exists [], t. split; [reflexivity|]. intros cs []. Qed.
Lemma early_end : forall cs t, ~ fails_early (Chunk cs End :: t).
Proof. intros cs t (a & b & E & F). destruct a as [|x a]; [discriminate|]. injection E as <- _. apply (F cs). now left. Qed.
Lemma early_chunk : forall cs s t, s <> End -> (fails_early (Chunk cs s :: t) <-> fails_early t).
Proof.
  intros cs s t NE. split.
  - intros (a & b & E & F). destruct a as [|x a]; [discriminate|]. injection E as <- ->. exists a, b. split; [reflexivity|]. intros c I. apply (F c). now right.
  - intros (a & b & -> & F). exists (Chunk cs s :: a), b. split; [reflexivity|]. intros c [I|I]; [injection I as _ I; auto|exact (F c I)].
Qed.
Lemma read_early : forall i sc len r cs j sc', wf i -> (136 <= len)%nat -> read i sc len = (r, cs, j, sc') ->
  (fails_early sc -> r = RErr \/ ((exists n s, r = ROk n s /\ s <> End) /\ fails_early sc')) /\
  (~ fails_early sc -> (exists n s, r = ROk n s) /\ ~ fails_early sc').
Proof.
  intros i sc len r cs j sc' W L H. destruct (read_spec _ _ _ _ _ _ _ W H) as (_ & _ & _ & C).
  destruct C as [(_ & B & _)|[(-> & -> & _)|[(-> & EI & _)|(raw & s & new & cs2 & EI & _ & _ & _ & _ & _ & _ & C)]]].
  - rewrite nbs_136 in B. lia.
  - split; intro F; [right; split; [do 2 eexists; split; [reflexivity|discriminate]|exact F]|split; [now do 2 eexists|exact F]].
  - destruct sc as [|[c s|] t]; cbn in EI; [discriminate|destruct s; discriminate|]. split; [now left|intro F; destruct F; apply early_fail].
  - assert (K : fails_early sc <-> fails_early sc' /\ s <> End).
    { destruct sc as [|[c s'|] t]; cbn in EI; [|destruct s'|discriminate]; injection EI as <- <- <-.
      - split; [intro F; now destruct early_nil|now intros []].
      - rewrite early_chunk by discriminate. split; [intro F; split; [exact F|discriminate]|now intros []].
      - rewrite early_chunk by discriminate. split; [intro F; split; [exact F|discriminate]|now intros []].
      - split; [intro F; now destruct (early_end _ _ F)|now intros []]. }
    assert (NI : s = End -> ~ fails_early sc').
    { intros ->. destruct sc as [|[c s'|] t]; cbn in EI; [|destruct s'|]; try discriminate; injection EI as <- <-; exact early_nil. }
    split; intro F.
    + apply K in F. destruct F as [F NE]. right. split; [|exact F]. destruct C as [(-> & _)|(-> & _)]; do 2 eexists; (split; [reflexivity|]); [exact NE|discriminate].
    + split; [destruct C as [(-> & _)|(-> & _)]; now do 2 eexists|]. intro G. apply F, K. split; [exact G|]. intros ->. now apply NI.
Qed.

Lemma early_dec : forall sc, fails_early sc \/ ~ fails_early sc.
Proof.
  induction sc as [|[cs s|] t IH]; [right; exact early_nil| |left; apply early_fail]. destruct s; [|rewrite early_chunk by discriminate; exact IH|right; apply early_end]. rewrite early_chunk by discriminate; exact IH.
Qed.

(** * The loop *)
Definition reached (nel lsps : bool) (script : list event) (t : text_reader) (ns : list nat) (xs : list (read_result * list N)) : Prop :=
  legal_sizes ns /\ reads (new_input nel lsps) script ns = (xs, state_of t, stream_of t) /\ wf (state_of t) /\ exists D, ainv D (abs_of (state_of t)).
Lemma reached_new : forall nel lsps script, reached nel lsps script (new_reader nel lsps script) [] [].
Proof. intros. split; [constructor|]. split; [reflexivity|]. split; [apply wf_new|]. exists []. apply new_ainv. Qed.
Lemma reached_step : forall nel lsps script t ns xs len r cs i sc, reached nel lsps script t ns xs -> (136 <= len)%nat -> read (state_of t) (stream_of t) len = (r, cs, i, sc) ->
  reached nel lsps script (mkreader i sc) (ns ++ [len]) (xs ++ [(r, cs)]) /\ (r = ROk 0 End \/ (measure i sc < measure (state_of t) (stream_of t))%nat) /\ (forall n s, r = ROk n s -> n = str_len cs /\ (n <= len)%nat).
Proof.
  intros nel lsps script t ns xs len r cs i sc (LS & RD & W & D & I) L ER.
  destruct (read_progress0 _ _ _ _ _ _ _ _ W I (eq_ind_r (fun k => (k <= len)%nat) L nbs_136) ER) as [I' PR].
  split; [split; [apply Forall_app; split; [exact LS|constructor; [exact L|constructor]]|split; [exact (BufProps.reads_snoc _ _ _ _ _ _ _ _ _ _ _ RD ER)|split; [exact (read_wf _ _ _ _ _ _ _ W ER)|exact I']]]|].
  split; [exact PR|]. intros n s ->. pose proof (read_count _ _ _ _ _ _ _ _ W ER) as ->. split; [reflexivity|]. exact (read_length _ _ _ _ _ _ _ W ER).
Qed.
Lemma delivered_app : forall a b, delivered (a ++ b) = delivered a ++ delivered b.
Proof. intros. apply flat_map_app. Qed.
Definition grown (minimum suggested left : nat) : nat := if Nat.ltb left minimum then (left + suggested)%nat else left.
Lemma grown_ok : forall minimum suggested left, (minimum <= suggested)%nat -> (minimum <= grown minimum suggested left)%nat.
Proof. intros. unfold grown. destruct (Nat.ltb_spec left minimum); lia. Qed.
Lemma go_spec : forall fuel nel lsps script minimum suggested len old t ns xs r t', (136 <= minimum <= suggested)%nat -> (minimum <= len)%nat -> reached nel lsps script t ns xs ->
  to_end_go fuel minimum suggested len (length old) t (old ++ encode_all (delivered xs)) = Some (r, t') ->
  (r = Broken <-> fails_early (stream_of t)) /\
  (forall n bs, r = Whole n bs -> exists ns' xs', reached nel lsps script t' ns' xs' /\ reached_end xs' /\ bs = old ++ encode_all (delivered xs') /\ n = str_len (delivered xs')).
Proof.
  induction fuel as [|f IH]; intros nel lsps script minimum suggested len old t ns xs r t' M L R H; cbn [to_end_go] in H; [discriminate|].
  destruct (read (state_of t) (stream_of t) len) as [[[x cs] i] sc] eqn:ER. assert (L1 : (136 <= len)%nat) by lia.
  destruct (reached_step _ _ _ _ _ _ _ _ _ _ _ R L1 ER) as (R1 & PR & CN). destruct R as (_ & _ & W & _). destruct (read_early _ _ _ _ _ _ _ W L1 ER) as [E1 E2].
  assert (EA : (old ++ encode_all (delivered xs)) ++ encode_all cs = old ++ encode_all (delivered (xs ++ [(x, cs)]))).
  { rewrite delivered_app, encode_all_app, app_assoc. cbn [delivered flat_map snd]. now rewrite app_nil_r. }
  destruct x as [n s| |].
  - rewrite EA in H. assert (S : s = End \/ (s <> End /\ to_end_go f minimum suggested (grown minimum suggested (len - n)) (length old) (mkreader i sc) (old ++ encode_all (delivered (xs ++ [(ROk n s, cs)]))) = Some (r, t'))).
    { destruct s; [right; split; [discriminate|exact H]|right; split; [discriminate|exact H]|now left]. }
    destruct S as [->|[NE G]].
    + injection H as <- <-. split.
      * split; [discriminate|]. intro F. destruct (E1 F) as [X|[(a & b & X & NE) _]]; [discriminate|]. injection X as _ <-. now destruct NE.
      * intros m bs X. injection X as <- <-. exists (ns ++ [len]), (xs ++ [(ROk n End, cs)]). split; [exact R1|]. split; [now exists xs, n, cs|]. split; [reflexivity|]. rewrite app_length, encode_all_length. lia.
    + destruct (IH _ _ _ _ _ _ _ _ _ _ _ _ M (grown_ok _ suggested (len - n) (proj2 M)) R1 G) as [A B]. split; [|exact B]. rewrite A. cbn [stream_of]. split.
      * intro F. destruct (early_dec (stream_of t)) as [X|X]; [exact X|]. now destruct (proj2 (E2 X)).
      * intro F. now destruct (E1 F) as [X|[_ X]].
  - injection H as <- <-. split; [|discriminate]. split; [|auto]. intros _. destruct (early_dec (stream_of t)) as [X|X]; [exact X|]. destruct (E2 X) as ((a & b & Y) & _). discriminate.
  - injection H as <- <-. split; [|discriminate]. split; [|auto]. intros _. destruct (early_dec (stream_of t)) as [X|X]; [exact X|]. destruct (E2 X) as ((a & b & Y) & _). discriminate.
Qed.
Lemma go_ends : forall fuel nel lsps script minimum suggested len start t ns xs buf, (136 <= minimum <= suggested)%nat -> (minimum <= len)%nat -> reached nel lsps script t ns xs ->
  (measure (state_of t) (stream_of t) < fuel)%nat -> exists r t', to_end_go fuel minimum suggested len start t buf = Some (r, t').
Proof.
  induction fuel as [|f IH]; intros nel lsps script minimum suggested len start t ns xs buf M L R F; [lia|]. cbn [to_end_go].
  destruct (read (state_of t) (stream_of t) len) as [[[x cs] i] sc] eqn:ER. assert (L1 : (136 <= len)%nat) by lia.
  destruct (reached_step _ _ _ _ _ _ _ _ _ _ _ R L1 ER) as (R1 & PR & CN).
  destruct x as [n s| |]; [|now do 2 eexists|now do 2 eexists].
  assert (S : s = End \/ (s <> End /\ (measure i sc < measure (state_of t) (stream_of t))%nat)).
  { destruct s; [right|right|now left]; (split; [discriminate|]); (destruct PR as [X|PR]; [discriminate|exact PR]). }
  destruct S as [->|[NE P]]; [now do 2 eexists|].
  assert (P1 : (measure (state_of (mkreader i sc)) (stream_of (mkreader i sc)) < f)%nat) by (cbn; lia).
  pose proof (IH _ _ _ _ suggested _ start _ _ _ (buf ++ encode_all cs) M (grown_ok _ suggested (len - n) (proj2 M)) R1 P1) as G. destruct s; [exact G|exact G|now destruct NE].
Qed.
Lemma more_fuel : forall f minimum suggested len start t buf r, to_end_go f minimum suggested len start t buf = Some r -> forall f', (f <= f')%nat -> to_end_go f' minimum suggested len start t buf = Some r.
Proof.
  induction f as [|f IH]; intros minimum suggested len start t buf r H f' L; [discriminate|]. destruct f' as [|f']; [lia|]. cbn [to_end_go] in *.
  destruct (read (state_of t) (stream_of t) len) as [[[x cs] i] sc]. destruct x as [n s| |]; [|exact H|exact H]. assert (L1 : (f <= f')%nat) by lia. destruct s; [exact (IH _ _ _ _ _ _ _ H _ L1)|exact (IH _ _ _ _ _ _ _ H _ L1)|exact H].
Qed.
Lemma sizes_legal : forall a b, (136 <= minimum_buffer_size a <= reader_suggested a b)%nat.
Proof. intros. unfold reader_suggested, minimum_buffer_size. rewrite nbs_136. lia. Qed.
Lemma gives_once : forall nel lsps script a b, gives nel lsps script a -> gives nel lsps script b -> a = b.
Proof.
  intros nel lsps script a b (s1 & x1 & j1 & t1 & R1 & E1 & <-) (s2 & x2 & j2 & t2 & R2 & E2 & <-).
  destruct (session_end _ _ _ _ _ _ _ R1 E1) as (-> & _). destruct (session_end _ _ _ _ _ _ _ R2 E2) as (-> & _). reflexivity.
Qed.

(** * The whole text *)
Theorem to_end_total : forall nel lsps script a b buf, exists k r t', forall fuel, (k <= fuel)%nat -> read_to_end fuel a b (new_reader nel lsps script) buf = Some (r, t').
Proof.
  intros nel lsps script a b buf. pose proof (sizes_legal a b) as M.
  destruct (go_ends (S (measure (new_input nel lsps) script)) nel lsps script _ _ _ (length buf) (new_reader nel lsps script) [] [] buf M (proj2 M) (reached_new _ _ _) (le_n _)) as (r & t' & H).
  exists (S (measure (new_input nel lsps) script)), r, t'. intros fuel L. exact (more_fuel _ _ _ _ _ _ _ _ H _ L).
Qed.
Theorem to_end_fails : forall nel lsps script a b fuel buf r t', read_to_end fuel a b (new_reader nel lsps script) buf = Some (r, t') -> (r = Broken <-> fails_early script).
Proof.
  intros nel lsps script a b fuel buf r t' H. pose proof (sizes_legal a b) as M. rewrite <- (app_nil_r buf) in H at 1. unfold read_to_end in H.
  replace (length (buf ++ [])) with (length buf) in H by now rewrite app_nil_r.
  exact (proj1 (go_spec _ _ _ _ _ _ _ buf _ _ _ _ _ M (proj2 M) (reached_new nel lsps script) H)).
Qed.
Theorem to_end_whole : forall nel lsps script a b fuel buf n bs t', read_to_end fuel a b (new_reader nel lsps script) buf = Some (Whole n bs, t') ->
  exists text, gives nel lsps script text /\ (forall text', gives nel lsps script text' -> text' = text) /\ bs = buf ++ encode_all text /\ n = length (encode_all text) /\
  string_ok text /\ line_terminated text.
Proof.
  intros nel lsps script a b fuel buf n bs t' H. pose proof (sizes_legal a b) as M. rewrite <- (app_nil_r buf) in H at 1. unfold read_to_end in H.
  replace (length (buf ++ [])) with (length buf) in H by now rewrite app_nil_r.
  destruct (proj2 (go_spec _ _ _ _ _ _ _ buf _ _ _ _ _ M (proj2 M) (reached_new nel lsps script) H) _ _ eq_refl) as (ns & xs & (LS & RD & _) & RE & -> & ->).
  assert (G : gives nel lsps script (delivered xs)) by (exists ns, xs, (state_of t'), (stream_of t'); auto).
  exists (delivered xs). split; [exact G|]. split; [intros text' G'; exact (gives_once _ _ _ _ _ G' G)|]. split; [reflexivity|]. split; [symmetry; apply encode_all_length|].
  exact (session_is_text_buffers _ _ _ _ _ _ _ RD RE).
Qed.
(** Into a String. *)
Theorem to_string_whole : forall nel lsps script a b fuel s n bs t', scalars s -> scalar_stream script -> read_to_string fuel a b (new_reader nel lsps script) s = Some (Whole n bs, t') ->
  valid_utf8 bs = true /\ exists text, gives nel lsps script text /\ decode bs = (s ++ text, []) /\ n = str_len text.
Proof.
  intros nel lsps script a b fuel s n bs t' SC SS H. destruct (to_end_whole _ _ _ _ _ _ _ _ _ _ H) as (text & G & _ & -> & -> & _).
  assert (ST : scalars text) by (destruct G as (ns & xs & j & rest & RD & _ & <-); exact (read_scalar_text _ _ _ _ _ _ _ SS RD)).
  assert (D : decode (encode_all s ++ encode_all text) = (s ++ text, [])).
  { rewrite <- encode_all_app, <- (app_nil_r (encode_all _)). apply decode_encode; [apply scalars_app; auto|reflexivity]. }
  unfold valid_utf8. rewrite D. split; [reflexivity|]. exists text. split; [exact G|]. split; [reflexivity|apply encode_all_length].
Qed.
(** Into a TextString. *)
Theorem to_text_whole : forall nel lsps script a b fuel s r t', string_ok s -> scalars s -> scalar_stream script -> read_to_text fuel a b (new_reader nel lsps script) s = Some (r, t') ->
  (fails_early script /\ r = TBroken) \/
  (~ fails_early script /\ exists text, gives nel lsps script text /\ r = TWhole (str_len text) (encode_all (s ++ text)) /\ (string_ok (s ++ text) <-> ~ joined s text)).
Proof.
  intros nel lsps script a b fuel s r t' SK SC SS H. unfold read_to_text in H. destruct (read_to_string fuel a b (new_reader nel lsps script) s) as [[r0 t0]|] eqn:E; [|discriminate].
  pose proof (to_end_fails _ _ _ _ _ _ _ _ _ E) as F. destruct r0 as [n bs|]; [right|left; injection H as <- <-; split; [now apply F|reflexivity]].
  split; [intro X; apply F in X; discriminate|]. destruct (to_end_whole _ _ _ _ _ _ _ _ _ _ E) as (text & G & _ & EB & EN & TK & _).
  assert (ST : scalars text) by (destruct G as (ns & xs & j & rest & RD & _ & <-); exact (read_scalar_text _ _ _ _ _ _ _ SS RD)).
  assert (D : fst (decode (skipn (str_len s) bs)) = text).
  { rewrite EB, <- encode_all_length, skipn_app, skipn_all, Nat.sub_diag. cbn [app skipn]. rewrite <- (app_nil_r (encode_all text)), decode_encode; [reflexivity|exact ST|reflexivity]. }
  cbv zeta in H. rewrite D in H. destruct (read_to_string_ok _ _ SK TK) as [RS J]. rewrite RS in H. injection H as <- <-.
  exists text. split; [exact G|]. split; [|exact J]. rewrite EN, EB, encode_all_length, encode_all_app. reflexivity.
Qed.
(** The example of lib.rs. *)
Theorem to_text_fresh : forall nel lsps script a b fuel r t', scalar_stream script -> no_fail script -> read_to_text fuel a b (new_reader nel lsps script) [] = Some (r, t') ->
  exists text, gives nel lsps script text /\ r = TWhole (str_len text) (encode_all text) /\ string_ok text.
Proof.
  intros nel lsps script a b fuel r t' SS NF H. assert (K : string_ok []) by (apply basic_text_spec; vm_compute; reflexivity).
  destruct (to_text_whole _ _ _ _ _ _ _ _ _ K (Forall_nil _) SS H) as [[(x & y & -> & _) _]|(_ & text & G & -> & J)]; [destruct NF; apply in_or_app; right; now left|].
  exists text. split; [exact G|]. split; [reflexivity|]. apply J. intros (p & q & u & v & E & _). destruct p; discriminate.
Qed.
