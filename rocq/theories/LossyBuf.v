(** The lossy lines of a BufReader over a TextReader. *)
From Coq Require Import NArith Arith List Bool Lia ConstructiveEpsilon.
From Verif Require Import Base Ucd UcdTables Norm Chars TextTables TextUtils UcdFacts NormFacts CharFacts DocTable SpecText TextFacts PipelineFacts DocFacts IsoFacts
  Utf8 Utf8Facts Input Output ReadFacts ReadInv ReadSession SpecRead ScalarFacts ReadChunk SpecEscape EscapeFacts EscapeRun ReadProps KeepFacts ReadPieces SpecConv ConvFacts ReadMore
  SpecWrite WriteFacts WriteProps Strings StringFacts SpecString LossyProps EdgeFacts Copy CopyProps ExactProps StdIo SpecStd CutProps StdProps SizeProps SpecCat Lines SpecLine LineProps LineIo StdBuf SpecBuf BufProps StdLines SpecLossyBuf.
From Verif Require ByteProps.
Import ListNotations.
Local Open Scope N_scope.
Arguments N.add : simpl never.
Arguments N.leb : simpl never.
Arguments N.ltb : simpl never.
Arguments N.eqb : simpl never.
Local Opaque pipeline.

Section conversion.
Variable debug : bool.
Variable conv : list N -> option (list N).
Hypothesis HC : forall v, lossy v (conv v).

Lemma lossy_keep_line : forall p t it, ~ In LF p -> next_line_lossy debug conv (p ++ LF :: t) = Some (Some it, t) -> exists rest, next_line_lossy_io debug conv (keep (p ++ [LF]) []) = Some (Some it, rest).
Proof.
  intros p t it NI H. unfold next_line_lossy, read_text_line_lossy, read_line in H. rewrite until_lf_line in H by exact NI. unfold next_line_lossy_io, read_text_line_lossy_io, read_line_io.
  assert (K : keep (p ++ [LF]) [] = [Bytes (p ++ [LF])]) by (unfold keep; destruct (p ++ [LF]) eqn:E; [destruct p; discriminate|reflexivity]). rewrite K. clear K.
  assert (U : read_until [Bytes (p ++ [LF])] = (p ++ [LF], true, [])).
  { cbn [read_until]. destruct (p ++ [LF]) as [|x l] eqn:E; [destruct p; discriminate|]. rewrite <- E. rewrite until_lf_line by exact NI. now rewrite LineProps.ends_snoc. }
  rewrite U. destruct (decode (p ++ [LF])) as [s [|y ys]]; [|injection H as <-; eauto]. destruct (conv ([] ++ s)); [|discriminate].
  destruct (length (p ++ [LF])); [discriminate|]. destruct (debug && _); [discriminate|]. cbv zeta in *. destruct (debug && _); [discriminate|]. injection H as <-. eauto.
Qed.
Lemma lossy_keep_failed : forall p, ~ In LF p -> exists rest, next_line_lossy_io debug conv (keep p [Failure]) = Some (Some LineErr, rest).
Proof.
  intros p NI. unfold next_line_lossy_io, read_text_line_lossy_io, read_line_io. assert (U : exists rest, read_until (keep p [Failure]) = (p, false, rest)).
  { destruct p as [|x p]; [now exists []|]. unfold keep. cbn [read_until]. rewrite until_lf_rest, not_ends by exact NI. rewrite app_nil_r. eexists. reflexivity. }
  destruct U as [rest ->]. destruct (decode p) as [s [|y ys]]; eauto.
Qed.
Lemma lossy_keep_end : next_line_lossy_io debug conv (keep [] []) = Some (None, []).
Proof. unfold next_line_lossy_io, read_text_line_lossy_io, read_line_io. cbn. destruct (lossy_ok _ _ (HC [])) as (t & -> & _). reflexivity. Qed.
Definition lossy_next_is (p : list N) (it : item) : Prop := forall t, next_line_lossy debug conv (p ++ LF :: t) = Some (Some it, t).
Lemma lossy_next_any : forall p, ~ In LF p -> exists it, lossy_next_is p it /\ exists rest, next_line_lossy_io debug conv (keep (p ++ [LF]) []) = Some (Some it, rest).
Proof.
  intros p FP. destruct (next_lossy_spec debug conv HC p [] FP) as (it & N1 & _). exists it. split; [|exact (lossy_keep_line p [] it FP N1)].
  intro t. unfold next_line_lossy, read_text_line_lossy, read_line in *. rewrite until_lf_line in * by exact FP. destruct (decode (p ++ [LF])) as [s [|y ys]]; [|injection N1 as <-; reflexivity].
  destruct (conv ([] ++ s)); [|discriminate]. destruct (length (p ++ [LF])); [discriminate|]. destruct (debug && _); [discriminate|]. cbv zeta in *. destruct (debug && _); [discriminate|].
  injection N1 as <-; reflexivity.
Qed.
Lemma lossy_buf_lines : forall ps l b q (Q : list item -> Prop), Forall (fun p => ~ In LF p) ps -> ~ In LF l -> BufProps.holds b (lines_of ps ++ l) q ->
  (forall b', BufProps.holds b' l q -> exists n its, Q its /\ forall m fuel, (n <= m)%nat -> (n <= fuel)%nat -> buf_text_lines_lossy m fuel debug conv b' = Some its) ->
  exists n its its2, Forall2 lossy_next_is ps its /\ Q its2 /\ forall m fuel, (n <= m)%nat -> (n <= fuel)%nat -> buf_text_lines_lossy m fuel debug conv b = Some (its ++ its2).
Proof.
  intros ps l b q Q F NL. revert b. induction F as [|p ps FP FS IH]; intros b H NEXT.
  - destruct (NEXT b H) as (n & its & HQ & K). exists n, [], its. auto.
  - unfold lines_of in H. cbn [map concat] in H. rewrite <- !app_assoc in H. cbn [app] in H. destruct (until_line _ p _ q H FP) as (n & b' & H' & K).
    destruct (IH b' H' NEXT) as (n2 & its & its2 & F2 & HQ & K2). destruct (lossy_next_any p FP) as (it & N1 & rest & N2). exists (S (n + n2)), (it :: its), its2. split; [now constructor|]. split; [exact HQ|].
    intros [|m] fuel L1 L2; [lia|]. cbn [buf_text_lines_lossy app]. unfold buf_next_line_lossy. rewrite K by lia. rewrite N2. rewrite K2 by lia. reflexivity.
Qed.
Lemma lossy_items_det : forall ps its f, Forall2 lossy_next_is ps its -> (length (lines_of ps) <= f)%nat -> all_items (next_line_lossy debug conv) f (lines_of ps) = Some its.
Proof.
  intros ps its f F. revert f. induction F as [|p it ps its H F IH]; intros f L.
  - destruct f; [reflexivity|]. cbn [all_items lines_of map concat]. now rewrite next_lossy_nil.
  - unfold lines_of in *. cbn [map concat] in *. rewrite <- !app_assoc in *. cbn [app] in *. destruct f as [|f]; [rewrite !app_length in L; cbn in L; lia|]. cbn [all_items].
    change 0xA with LF in *. rewrite H. rewrite IH; [reflexivity|]. rewrite app_length in L. cbn [length] in L. lia.
Qed.
Lemma lossy_lines_items : forall ps its, Forall2 lossy_next_is ps its -> text_lines_lossy debug conv (lines_of ps) = Some its.
Proof. intros ps its F. unfold text_lines_lossy. now apply lossy_items_det. Qed.
Definition lossy_all_items (segs : list (list N)) (its : list item) : Prop :=
  exists ls last, Forall2 (lossy_items_for debug conv) segs (ls ++ [last]) /\ its = concat (map (fun l => l ++ [LineErr]) ls) ++ last.
Lemma lossy_segments_items : forall q t0 b, BufProps.holds b (encode_all t0) q -> line_terminated (last (t0 :: q) []) ->
  exists n its, lossy_all_items (t0 :: q) its /\ forall m fuel, (n <= m)%nat -> (n <= fuel)%nat -> buf_text_lines_lossy m fuel debug conv b = Some its.
Proof.
  induction q as [|t q IH]; intros t0 b H LT; destruct (lines_exist _ (encode_all t0) (le_n _)) as (ps & l & E & F & NL); rewrite E in H.
  - assert (QN : l = []).
    { destruct l as [|x l]; [reflexivity|exfalso]. destruct LT as [Z|[u Z]]; cbn [last] in Z; subst t0; [symmetry in E; apply app_eq_nil in E; destruct E; discriminate|]. rewrite encode_snoc_LF in E.
      destruct (exists_last (l := x :: l) ltac:(discriminate)) as (q' & y & EQ2). rewrite EQ2 in *. rewrite app_assoc in E. apply app_inj_tail in E. destruct E as [_ <-]. apply NL, in_or_app. right. now left. }
    subst l. destruct (lossy_buf_lines ps [] b [] (fun its => its = []) F NL H) as (n & its & its2 & F2 & -> & K).
    { intros b' H'. destruct (until_rest _ _ _ H' ltac:(intros [])) as (n & b2 & _ & K). exists (S n), []. split; [reflexivity|]. intros [|m] fuel L1 L2; [lia|]. cbn [buf_text_lines_lossy]. unfold buf_next_line_lossy. rewrite K by lia. now rewrite lossy_keep_end. }
    exists n, its. rewrite app_nil_r in K. split; [|exact K]. exists [], its. split; [|reflexivity]. constructor; [|constructor]. exists (lines_of ps), []. split; [exact E|]. split; [intros []|]. split; [apply lines_ended|now apply lossy_lines_items].
  - destruct (lossy_buf_lines ps l b (t :: q) (fun its => exists its2, its = LineErr :: its2 /\ lossy_all_items (t :: q) its2) F NL H) as (n & its & its2 & F2 & (its3 & -> & (ls & la & A1 & A2)) & K).
    { intros b' H'. destruct (until_rest _ _ _ H' NL) as (n & b2 & H2 & K). destruct (IH t b2 H2 LT) as (n2 & its & A & K2). exists (S (n + n2)), (LineErr :: its). split; [eauto|].
      intros [|m] fuel L1 L2; [lia|]. cbn [buf_text_lines_lossy]. unfold buf_next_line_lossy. rewrite K by lia. destruct (lossy_keep_failed l NL) as [rest ->]. rewrite K2 by lia. reflexivity. }
    exists n, (its ++ LineErr :: its3). split; [|exact K]. exists (its :: ls), la. split.
    + cbn [app]. constructor; [|exact A1]. exists (lines_of ps), l. split; [exact E|]. split; [exact NL|]. split; [apply lines_ended|now apply lossy_lines_items].
    + subst its3. cbn [map concat]. rewrite <- !app_assoc. reflexivity.
Qed.
Theorem lossy_buffered_any : forall nel lsps script cap, (136 <= cap)%nat ->
  exists k xs j rest n its, reads (new_input nel lsps) script (repeat cap k) = (xs, j, rest) /\ reached_end xs /\
  (exists ls last, Forall2 (lossy_items_for debug conv) (SpecBuf.segments xs) (ls ++ [last]) /\ its = concat (map (fun l => l ++ [LineErr]) ls) ++ last) /\
  forall m fuel, (n <= m)%nat -> (n <= fuel)%nat -> buf_text_lines_lossy m fuel debug conv (new_bufreader nel lsps script cap) = Some its.
Proof.
  intros nel lsps script cap C. destruct (runs_exist cap _ (new_input nel lsps) script [] C (le_n _) (wf_new _ _) (new_ainv _ _)) as (k & rs & j & sc' & RU & R & RE).
  destruct (segments_cons rs) as (t0 & q & ES). destruct (session_is_text_buffers _ _ _ _ _ _ _ R RE) as [_ LT]. destruct (segments_last rs) as (u & E & _). rewrite E, ES in LT. rewrite ES in RU.
  assert (LT2 : line_terminated (last (t0 :: q) [])).
  { destruct (last (t0 :: q) []) as [|c x] eqn:EL using rev_ind; [now left|]. right. destruct LT as [Z|[v Z]]; [apply app_eq_nil in Z; destruct Z as [_ Z]; apply app_eq_nil in Z; destruct Z; discriminate|].
    rewrite app_assoc in Z. apply app_inj_tail in Z. destruct Z as [_ ->]. eauto. }
  destruct (lossy_segments_items q t0 (new_bufreader nel lsps script cap)) as (n & its & A & K); [exists t0; split; [exact RU|reflexivity]|exact LT2|].
  exists k, rs, j, sc', n, its. rewrite ES. split; [exact R|]. split; [exact RE|]. split; [exact A|exact K].
Qed.
Theorem lossy_buffered : forall nel lsps script cap t, (136 <= cap)%nat -> no_fail script -> gives nel lsps script t ->
  exists n its, text_lines_lossy debug conv (encode_all t) = Some its /\ forall m fuel, (n <= m)%nat -> (n <= fuel)%nat -> buf_text_lines_lossy m fuel debug conv (new_bufreader nel lsps script cap) = Some its.
Proof.
  intros nel lsps script cap t C NF (sizes & rs & j & rest & R & RE & D).
  destruct (lossy_buffered_any nel lsps script cap C) as (k & xs & j' & sc' & n & its & R' & RE' & (ls & la & F & EI) & K). exists n, its. split; [|exact K].
  destruct (sizes_do_not_matter_received _ _ _ _ _ _ _ _ _ _ _ R R' NF RE) as [_ EQ]. specialize (EQ RE'). rewrite <- (received_delivered _ _ _ _ _ _ (wf_new _ _) NF R) in D.
  rewrite (segments_received _ _ _ _ _ _ (wf_new _ _) NF R') in F by (apply Forall_forall; intros x X; apply repeat_spec in X; subst x; exact C). rewrite <- EQ, D in F.
  assert (ls = []) by (destruct ls as [|l1 [|l2 ls]]; [reflexivity| |]; inversion F as [|? ? ? ? _ F2]; subst; inversion F2). subst ls. cbn [app map concat] in *. subst its.
  inversion F as [|? ? ? ? (u & l & E & NL & UE & TL) _]; subst. destruct (session_is_text _ _ _ _ _ _ _ R NF RE) as [_ LT].
  assert (LN : l = []).
  { destruct l as [|x l]; [reflexivity|exfalso]. destruct LT as [Z|[v Z]]; rewrite Z in E; [symmetry in E; apply app_eq_nil in E; destruct E; discriminate|]. change 0xA with LF in E. rewrite encode_snoc_LF in E.
    destruct (exists_last (l := x :: l) ltac:(discriminate)) as (q' & y & EQ2). rewrite EQ2 in *. rewrite app_assoc in E. apply app_inj_tail in E. destruct E as [_ <-]. apply NL, in_or_app. right. now left. }
  subst l. rewrite app_nil_r in E. now rewrite E.
Qed.
End conversion.
(** The lossy line [l] that is given for the line [v] of a text. *)
Theorem lossy_buffered_each : forall debug conv nel lsps script cap t, (forall v, lossy v (conv v)) -> (136 <= cap)%nat -> no_fail script -> scalar_stream script -> gives nel lsps script t ->
  exists n vs ls, t = lines_of vs /\ Forall (fun v => ~ In LF v) vs /\
  Forall2 (fun v l => string_ok l /\ exists u, lossy (v ++ [LF]) (Some (u ++ [LF])) /\ (l = u \/ (~ ends_ok u /\ l = u ++ [0x34F]))) vs ls /\
  forall m fuel, (n <= m)%nat -> (n <= fuel)%nat -> buf_text_lines_lossy m fuel debug conv (new_bufreader nel lsps script cap) = Some (map Line ls).
Proof.
  intros debug conv nel lsps script cap t HC C NF SS G. destruct (lossy_buffered debug conv HC nel lsps script cap t C NF G) as (n & its & TL & K).
  destruct G as (sizes & rs & j & rest & R & RE & D). pose proof (ByteProps.read_scalar_text _ _ _ _ _ _ _ SS R) as ST. rewrite D in ST.
  destruct (session_is_text _ _ _ _ _ _ _ R NF RE) as [_ LT]. rewrite (received_delivered _ _ _ _ _ _ (wf_new _ _) NF R), D in LT.
  destruct (lines_exist _ t (le_n _)) as (vs & l & E & F & NL).
  assert (LN : l = []).
  { destruct l as [|x l]; [reflexivity|exfalso]. destruct LT as [Z|[v Z]]; rewrite Z in E; [symmetry in E; apply app_eq_nil in E; destruct E; discriminate|].
    destruct (exists_last (l := x :: l) ltac:(discriminate)) as (q' & y & EQ2). rewrite EQ2 in *. rewrite app_assoc in E. apply app_inj_tail in E. destruct E as [_ <-]. apply NL, in_or_app. right. now left. }
  subst l. rewrite app_nil_r in E.
  assert (EE : encode_all t = lines_of (map encode_all vs)).
  { rewrite E. clear. induction vs as [|l ls IH]; [reflexivity|]. unfold lines_of in *. cbn [map concat]. rewrite encode_all_app, IH. f_equal. apply encode_snoc_LF. }
  assert (SV : Forall scalars vs).
  { rewrite E in ST. clear - ST. induction vs as [|v vs IH]; [constructor|]. unfold lines_of in ST. cbn [map concat] in ST. apply Forall_app in ST. destruct ST as [A B]. apply Forall_app in A. destruct A as [A _]. constructor; [exact A|]. now apply IH. }
  destruct (lossy_lines_spec debug conv (map encode_all vs) HC) as (its' & E2 & F2).
  { apply Forall_forall. intros p I. apply in_map_iff in I. destruct I as (v & <- & I). intro X. apply (proj1 (Forall_forall _ _) F v I). apply encode_in_LF; [exact (proj1 (Forall_forall _ _) SV v I)|exact X]. }
  rewrite EE, E2 in TL. injection TL as ->.
  assert (L : exists ls, its = map Line ls /\ Forall2 (fun v l => string_ok l /\ exists u, lossy (v ++ [LF]) (Some (u ++ [LF])) /\ (l = u \/ (~ ends_ok u /\ l = u ++ [0x34F]))) vs ls).
  { clear - F2 SV. revert its F2. induction SV as [|v vs S1 S2 IH]; intros its F2; cbn [map] in F2.
    - inversion F2; subst. exists []. split; [reflexivity|constructor].
    - inversion F2 as [|? it ? its' H F3]; subst. destruct (IH _ F3) as (ls & -> & F4). destruct it as [l|]; [|exfalso; apply H; eauto].
      destruct H as (OK & v' & u & V1 & V2 & V3 & V4). apply encode_all_inj in V2; auto. subst v'. exists (l :: ls). split; [reflexivity|]. constructor; [|exact F4]. split; [exact OK|]. exists u. auto. }
  destruct L as (ls & -> & F4). exists n, vs, ls. auto.
Qed.

(** There is such a conversion. *)
Definition ends_read (rs : list (read_result * list N)) : bool := match rev rs with (ROk _ End, _) :: _ => true | _ => false end.
Lemma ends_read_spec : forall rs, ends_read rs = true <-> reached_end rs.
Proof.
  intro rs. unfold ends_read, reached_end. split.
  - intro H. destruct (rev rs) as [|[r cs] l] eqn:E; [discriminate|]. apply (f_equal (@rev _)) in E. rewrite rev_involutive in E. cbn in E. destruct r as [n []| |]; try discriminate. eauto.
  - intros (rs' & n & cs & ->). now rewrite rev_app_distr.
Qed.
Definition read_at_once (v : list N) (k : nat) : list (read_result * list N) := fst (fst (reads (new_input false false) [Chunk v End] (repeat 136%nat k))).
Lemma read_at_once_ends : forall v, exists k, ends_read (read_at_once v k) = true.
Proof.
  intro v. destruct (one_chunk v) as (E & NP & NF & BV). destruct (reads_as_total _ NP NF BV) as [n H].
  destruct (H (repeat 136%nat n)) as (k & rs & j & rest & R & RE & _).
  - apply Forall_forall. intros x HX. apply repeat_spec in HX. lia.
  - rewrite repeat_length. lia.
  - exists (Nat.min k n). apply ends_read_spec. unfold read_at_once. replace (repeat 136%nat (Nat.min k n)) with (firstn k (repeat 136%nat n)); [now rewrite R|].
    clear. revert n. induction k as [|k IH]; intros [|n]; cbn; try reflexivity. now rewrite IH.
Qed.
Definition number_of_reads (v : list N) : {k | ends_read (read_at_once v k) = true} :=
  constructive_indefinite_ground_description_nat (fun k => ends_read (read_at_once v k) = true) (fun k => Bool.bool_dec _ _) (read_at_once_ends v).
Definition conversion (v : list N) : option (list N) := lossy_result v (received (read_at_once v (proj1_sig (number_of_reads v)))).
Theorem conversion_lossy : forall v, lossy v (conversion v).
Proof.
  intro v. exists (received (read_at_once v (proj1_sig (number_of_reads v)))). split; [|reflexivity]. destruct (number_of_reads v) as [k K]. cbn [proj1_sig]. apply ends_read_spec in K.
  destruct (one_chunk v) as (E & NP & NF & BV). unfold read_at_once in *. destruct (reads (new_input false false) [Chunk v End] (repeat 136%nat k)) as [[rs j] rest] eqn:R. cbn [fst] in *.
  exists [Chunk v End], (repeat 136%nat k), rs, j, rest. auto 10.
Qed.
Theorem conversion_exists : exists conv, forall v, lossy v (conv v).
Proof. exists conversion. exact conversion_lossy. Qed.
