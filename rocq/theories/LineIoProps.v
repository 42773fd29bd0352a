(** Reading lines from a source that arrives in pieces and may fail. *)
From Coq Require Import NArith Arith List Bool Lia.
From Verif Require Import Base Ucd Norm Chars TextUtils SpecText TextFacts Utf8 Utf8Facts Input Strings SpecString LossyProps Lines LineProps LineIo SpecLine.
Import ListNotations.
Local Open Scope N_scope.
Arguments N.eqb : simpl never.

Lemma lf_dec : forall l : list N, In LF l \/ ~ In LF l.
Proof. intro l. destruct (in_dec N.eq_dec LF l); auto. Qed.
Lemma read_until_skip : forall us src, no_line_end us -> read_until (map Bytes us ++ src) = let '(l, ok, rest) := read_until src in (concat us ++ l, ok, rest).
Proof.
  intros us src H. induction H as [|u us [H1 H2] H IH]; cbn [map app concat]; [now destruct (read_until src) as [[? ?] ?]|].
  destruct u as [|b u]; [now elim H1|]. cbn [read_until]. rewrite (until_lf_rest (b :: u)), (not_ends (b :: u)) by exact H2. rewrite IH.
  destruct (read_until src) as [[l ok] rest]. now rewrite app_assoc.
Qed.
Lemma read_until_part : forall src line e rest, next_part src line e rest -> read_until src = (line, match e with Complete => true | Cut => false end, rest).
Proof.
  intros src line e rest H. destruct H as [us u v rest H U|us H|us rest H|us rest H].
  - rewrite read_until_skip by exact H. replace (Bytes (u ++ 10 :: v) :: rest) with (Bytes (u ++ LF :: v) :: rest) by reflexivity.
    assert (E : read_until (Bytes (u ++ LF :: v) :: rest) = (u ++ [LF], true, keep v rest)).
    { destruct (u ++ LF :: v) as [|b t] eqn:EB; [now destruct u|]. cbn [read_until]. rewrite <- EB, until_lf_line by exact U. now rewrite ends_snoc. }
    now rewrite E.
  - rewrite <- (app_nil_r (map Bytes us)), read_until_skip by exact H. cbn. now rewrite app_nil_r.
  - rewrite read_until_skip by exact H. cbn. now rewrite app_nil_r.
  - rewrite read_until_skip by exact H. cbn. now rewrite app_nil_r.
Qed.
(** every source has a next part *)
Lemma part_exists : forall src, exists line e rest, next_part src line e rest.
Proof.
  induction src as [|p src IH]; [exists [], Complete, []; apply (part_last []); constructor|]. destruct p as [bs|].
  - destruct bs as [|b bs]; [exists [], Complete, src; apply (part_eof [] src); constructor|]. destruct (until_lf_cases (b :: bs)) as [[NL _]|(u & v & E & U & _)].
    + destruct IH as (line & e & rest & H). exists ((b :: bs) ++ line), e, rest. assert (K : (b :: bs) <> [] /\ ~ In 0xA (b :: bs)) by (split; [discriminate|exact NL]).
      destruct H as [us u v rest H U|us H|us rest H|us rest H].
      * rewrite app_assoc. exact (part_line ((b :: bs) :: us) u v rest (Forall_cons _ K H) U).
      * exact (part_last ((b :: bs) :: us) (Forall_cons _ K H)).
      * exact (part_eof ((b :: bs) :: us) rest (Forall_cons _ K H)).
      * exact (part_cut ((b :: bs) :: us) rest (Forall_cons _ K H)).
    + exists (u ++ [LF]), Complete, (keep v src). rewrite E. exact (part_line [] u v src (Forall_nil _) U).
  - exists [], Cut, src. exact (part_cut [] src (Forall_nil _)).
Qed.
Lemma utf8_dec : forall l, (exists s, scalars s /\ l = encode_all s /\ decode l = (s, [])) \/ (~ (exists s, scalars s /\ l = encode_all s) /\ exists s b r, decode l = (s, b :: r)).
Proof. exact decode_rest. Qed.

(** * One line *)
(** what read_text_line does in every case *)
Theorem text_line_cases : forall buf src line e rest, next_part src line e rest ->
  (forall s, scalars s -> line = encode_all s -> e = Complete -> string_ok (buf ++ s) -> read_text_line_io buf src = (LOk (length line), buf ++ s, rest)) /\
  (forall s, scalars s -> line = encode_all s -> e = Complete -> ~ string_ok (buf ++ s) -> read_text_line_io buf src = (LErr, [], rest)) /\
  (forall s, scalars s -> line = encode_all s -> e = Cut -> read_text_line_io buf src = (LErr, buf ++ s, rest)) /\
  ((forall s, scalars s -> line <> encode_all s) -> read_text_line_io buf src = (LErr, buf, rest)).
Proof.
  intros buf src line e rest H. unfold read_text_line_io, read_line_io. rewrite (read_until_part _ _ _ _ H). split; [|split; [|split]].
  - intros s S -> -> O. rewrite decode_encode_all by exact S. apply basic_text_spec in O. now rewrite O.
  - intros s S -> -> O. rewrite decode_encode_all by exact S. destruct (is_basic_text (buf ++ s)) eqn:E; [|reflexivity]. elim O. now apply basic_text_spec.
  - intros s S -> ->. now rewrite decode_encode_all by exact S.
  - intros NE. destruct (utf8_dec line) as [(s & S & E & _)|(_ & s & b & r & ->)]; [now elim (NE s S)|]. reflexivity.
Qed.
Theorem text_line_ok : forall buf src n buf' rest, read_text_line_io buf src = (LOk n, buf', rest) <->
  exists line s, next_part src line Complete rest /\ scalars s /\ line = encode_all s /\ n = length line /\ buf' = buf ++ s /\ string_ok buf'.
Proof.
  intros buf src n buf' rest. split.
  - intro H. destruct (part_exists src) as (line & e & rest' & P). destruct (text_line_cases buf _ _ _ _ P) as (C1 & C2 & C3 & C4).
    destruct (utf8_dec line) as [(s & S & E & _)|(NE & _)]; [|rewrite C4 in H by (intros s S E; apply NE; eauto); discriminate].
    destruct e; [|rewrite (C3 s S E eq_refl) in H; discriminate].
    destruct (is_basic_text (buf ++ s)) eqn:EB.
    + apply basic_text_spec in EB. rewrite (C1 s S E eq_refl EB) in H. injection H as <- <- <-. exists line, s. auto 10.
    + rewrite (C2 s S E eq_refl) in H; [discriminate|]. intro O. apply basic_text_spec in O. congruence.
  - intros (line & s & P & S & E & -> & -> & O). now apply (text_line_cases buf _ _ _ _ P).
Qed.
(** the buffer stays valid unless the source fails *)
Theorem text_line_valid : forall buf src line rest r buf' rest', next_part src line Complete rest -> read_text_line_io buf src = (r, buf', rest') -> string_ok buf -> string_ok buf' /\ rest' = rest.
Proof.
  intros buf src line rest r buf' rest' P H O. destruct (text_line_cases buf _ _ _ _ P) as (C1 & C2 & _ & C4).
  destruct (utf8_dec line) as [(s & S & E & _)|(NE & _)]; [|rewrite C4 in H by (intros s S E; apply NE; eauto); injection H as <- <- <-; auto].
  destruct (is_basic_text (buf ++ s)) eqn:EB.
  - apply basic_text_spec in EB. rewrite (C1 s S E eq_refl EB) in H. injection H as <- <- <-. auto.
  - rewrite (C2 s S E eq_refl) in H; [|intro K; apply basic_text_spec in K; congruence]. injection H as <- <- <-. split; [|reflexivity]. apply basic_text_spec. reflexivity.
Qed.
Theorem text_line_valid_iff : forall buf src line e rest r buf' rest', next_part src line e rest -> read_text_line_io buf src = (r, buf', rest') -> string_ok buf ->
  (string_ok buf' <-> (e = Cut -> forall s, scalars s -> line = encode_all s -> string_ok (buf ++ s))).
Proof.
  intros buf src line e rest r buf' rest' P H O. destruct e.
  - split; [discriminate|]. intros _. exact (proj1 (text_line_valid _ _ _ _ _ _ _ P H O)).
  - destruct (text_line_cases buf _ _ _ _ P) as (_ & _ & C3 & C4). destruct (utf8_dec line) as [(s & S & E & _)|(NE & _)].
    + rewrite (C3 s S E eq_refl) in H. injection H as <- <- <-. split; [|intro K; exact (K eq_refl s S E)].
      intros K _ s' S' E'. rewrite E in E'. apply encode_all_inj in E'; auto. now subst s'.
    + rewrite C4 in H by (intros s S E; apply NE; eauto). injection H as <- <- <-. split; [|auto]. intros _ _ s S E. elim NE. eauto.
Qed.

(** * The lossy version *)
Theorem lossy_line_cases : forall conv buf src line e rest, next_part src line e rest ->
  (forall s, scalars s -> line = encode_all s -> e = Complete -> read_text_line_lossy_io conv buf src = match conv (buf ++ s) with Some t => Some (LOk (length line), t, rest) | None => None end) /\
  (forall s, scalars s -> line = encode_all s -> e = Cut -> read_text_line_lossy_io conv buf src = Some (LErr, buf ++ s, rest)) /\
  ((forall s, scalars s -> line <> encode_all s) -> read_text_line_lossy_io conv buf src = Some (LErr, buf, rest)).
Proof.
  intros conv buf src line e rest H. unfold read_text_line_lossy_io, read_line_io. rewrite (read_until_part _ _ _ _ H). split; [|split].
  - intros s S -> ->. now rewrite decode_encode_all by exact S.
  - intros s S -> ->. now rewrite decode_encode_all by exact S.
  - intros NE. destruct (utf8_dec line) as [(s & S & E & _)|(_ & s & b & r & ->)]; [now elim (NE s S)|]. reflexivity.
Qed.

Theorem lossy_line_valid : forall conv buf src line rest, (forall v, lossy v (conv v)) -> next_part src line Complete rest -> string_ok buf ->
  exists r buf', read_text_line_lossy_io conv buf src = Some (r, buf', rest) /\ string_ok buf' /\
  (r = LOk (length line) /\ (exists s, scalars s /\ line = encode_all s /\ lossy (buf ++ s) (Some buf')) \/ r = LErr /\ buf' = buf /\ ~ exists s, scalars s /\ line = encode_all s).
Proof.
  intros conv buf src line rest L P O. destruct (lossy_line_cases conv buf _ _ _ _ P) as (C1 & _ & C3). destruct (utf8_dec line) as [(s & S & E & _)|(NE & _)].
  - rewrite (C1 s S E eq_refl). destruct (lossy_ok _ _ (L (buf ++ s))) as (t & EC & OT). pose proof (L (buf ++ s)) as LL. rewrite EC in LL. rewrite EC. exists (LOk (length line)), t.
    split; [reflexivity|]. split; [exact OT|]. left. split; [reflexivity|]. exists s. auto.
  - rewrite C3 by (intros s S E; apply NE; eauto). exists LErr, buf. split; [reflexivity|]. split; [exact O|]. right. auto.
Qed.

(** * Pieces do not matter *)
Lemma sound_part : forall src, sound src -> exists line e rest, next_part src line Complete rest /\ e = Complete /\ sound rest /\ until_lf (all_bytes src) = (line, all_bytes rest).
Proof.
  intros src H. induction H as [|p src (bs & NE & ->) H IH]; [exists [], Complete, []; split; [apply (part_last []); constructor|]; repeat split; constructor|].
  destruct (until_lf_cases bs) as [[NL _]|(u & v & -> & U & _)].
  - destruct IH as (line & e & rest & P & -> & SR & EU). exists (bs ++ line), Complete, rest. assert (K : bs <> [] /\ ~ In 0xA bs) by auto. split.
    + remember Complete as e eqn:EE. destruct P as [us u v rest Q U|us Q|us rest Q|us rest Q]; try discriminate.
      * rewrite app_assoc. exact (part_line (bs :: us) u v rest (Forall_cons _ K Q) U).
      * exact (part_last (bs :: us) (Forall_cons _ K Q)).
      * exact (part_eof (bs :: us) rest (Forall_cons _ K Q)).
    + split; [reflexivity|]. split; [exact SR|]. cbn [all_bytes flat_map]. fold (all_bytes src). clear - NL EU. induction bs as [|b bs IH]; [exact EU|].
      cbn [app until_lf]. replace (b =? LF) with false by (symmetry; apply N.eqb_neq; intros ->; apply NL; now left). rewrite IH; [reflexivity|]. intro K. apply NL. now right.
  - exists (u ++ [LF]), Complete, (keep v src). split; [exact (part_line [] u v src (Forall_nil _) U)|]. split; [reflexivity|]. split.
    + unfold keep. destruct v as [|x v]; [exact H|]. constructor; [|exact H]. exists (x :: v). split; [discriminate|reflexivity].
    + cbn [all_bytes flat_map]. fold (all_bytes src). rewrite <- app_assoc. cbn [app]. rewrite until_lf_line by exact U. unfold keep. now destruct v.
Qed.
Lemma read_line_pieces : forall buf src, sound src -> exists rest, sound rest /\ read_line_io buf src = (fst (read_line buf (all_bytes src)), rest) /\ snd (read_line buf (all_bytes src)) = all_bytes rest.
Proof.
  intros buf src H. destruct (sound_part _ H) as (line & e & rest & P & -> & SR & EU). exists rest. split; [exact SR|]. unfold read_line_io, read_line. rewrite (read_until_part _ _ _ _ P), EU.
  destruct (decode line) as [s [|b r]]; auto.
Qed.
Theorem text_line_pieces : forall buf src, sound src -> exists r buf' rest, read_text_line_io buf src = (r, buf', rest) /\ sound rest /\ read_text_line buf (all_bytes src) = (r, buf', all_bytes rest).
Proof.
  intros buf src H. destruct (read_line_pieces buf _ H) as (rest & SR & E1 & E2). unfold read_text_line_io, read_text_line. rewrite E1.
  destruct (read_line buf (all_bytes src)) as [[r b] x]. cbn [fst snd] in *. subst x. destruct r as [n|]; [|exists LErr, b, rest; auto].
  destruct (is_basic_text b); do 3 eexists; eauto.
Qed.
Theorem lossy_line_pieces : forall conv buf src, sound src ->
  match read_text_line_lossy_io conv buf src with
  | Some (r, buf', rest) => sound rest /\ read_text_line_lossy conv buf (all_bytes src) = Some (r, buf', all_bytes rest)
  | None => read_text_line_lossy conv buf (all_bytes src) = None
  end.
Proof.
  intros conv buf src H. destruct (read_line_pieces buf _ H) as (rest & SR & E1 & E2). unfold read_text_line_lossy_io, read_text_line_lossy. rewrite E1.
  destruct (read_line buf (all_bytes src)) as [[r b] x]. cbn [fst snd] in *. subst x. destruct r as [n|]; [|auto]. destruct (conv b); auto.
Qed.
Theorem next_pieces : forall debug src, sound src ->
  match next_line_io debug src with
  | Some (it, rest) => sound rest /\ next_line debug (all_bytes src) = Some (it, all_bytes rest)
  | None => next_line debug (all_bytes src) = None
  end.
Proof.
  intros debug src H. destruct (text_line_pieces [] _ H) as (r & buf' & rest & E1 & SR & E2). unfold next_line_io, next_line. rewrite E1, E2.
  destruct r as [[|n]|]; auto. destruct (debug && _); auto. destruct (debug && _); auto. destruct (opt_all _ _); auto.
Qed.
Theorem next_lossy_pieces : forall debug conv src, sound src ->
  match next_line_lossy_io debug conv src with
  | Some (it, rest) => sound rest /\ next_line_lossy debug conv (all_bytes src) = Some (it, all_bytes rest)
  | None => next_line_lossy debug conv (all_bytes src) = None
  end.
Proof.
  intros debug conv src H. pose proof (lossy_line_pieces conv [] _ H) as K. unfold next_line_lossy_io, next_line_lossy.
  destruct (read_text_line_lossy_io conv [] src) as [[[r buf'] rest]|]; [destruct K as [SR ->]|now rewrite K].
  destruct r as [[|n]|]; auto. destruct (debug && _); auto. destruct (debug && _); auto.
Qed.

(** * Items *)
(** every line of an iterator is the next line of the source *)
Theorem next_io_line : forall debug src l rest, next_line_io debug src = Some (Some (Line l), rest) -> debug = true \/ (exists u, next_part src (u ++ [0xA]) Complete rest) ->
  scalars l /\ string_ok l /\ ~ In 0xA l /\ next_part src (encode_all l ++ [0xA]) Complete rest.
Proof.
  intros debug src l rest H D. unfold next_line_io in H. destruct (read_text_line_io [] src) as [[r buf] rest'] eqn:E. destruct r as [[|n]|]; [discriminate| |discriminate].
  pose proof E as E0. apply text_line_ok in E. destruct E as (line & s & P & S & -> & L & -> & O). cbn [app] in *.
  assert (R : rest' = rest) by (repeat (destruct (debug && _) in H; [discriminate|]); destruct (opt_all _ _) in H; [congruence|discriminate]). subst rest'.
  assert (EL : exists t, s = t ++ [LF] /\ ~ In LF t).
  { assert (EB : exists u, encode_all s = u ++ [LF] /\ ~ In LF u).
    { assert (W : ends_with LF (encode_all s) = true).
      { destruct D as [->|(u & Q)].
        - cbn [andb] in H. destruct (negb (ends_with LF s)) eqn:EN; [discriminate|]. apply negb_false_iff in EN. unfold ends_with in *.
          destruct (last_opt s) as [c|] eqn:EC; [|discriminate]. apply last_opt_some in EC. destruct EC as [t ->]. apply N.eqb_eq in EN. subst c.
          rewrite encode_snoc_LF, last_opt_snoc. apply N.eqb_refl.
        - apply read_until_part in P, Q. rewrite P in Q. injection Q as ->. unfold ends_with. now rewrite last_opt_snoc. }
      inversion P as [us u v r0 Q U E1 E2|us Q E1 E2|us r0 Q E1 E2|]; subst.
      - exists (concat us ++ u). split; [now rewrite <- app_assoc|]. rewrite in_app_iff. intros [K|K]; [|now apply U]. apply in_concat in K. destruct K as (x & K1 & K2).
        apply (proj1 (Forall_forall _ _) Q x K1). exact K2.
      - exfalso. rewrite <- E2 in W. rewrite not_ends in W; [discriminate|]. intro K. apply in_concat in K. destruct K as (x & K1 & K2). now apply (proj1 (Forall_forall _ _) Q x K1).
      - exfalso. rewrite <- E2 in W. rewrite not_ends in W; [discriminate|]. intro K. apply in_concat in K. destruct K as (x & K1 & K2). now apply (proj1 (Forall_forall _ _) Q x K1). }
    destruct EB as (u & EB & NU). pose proof (decode_encode_all _ S) as ED. rewrite EB in ED. destruct (decode_snoc_LF u) as [(t & ST & EU & D2)|(_ & a & b & r & D2)]; [|congruence].
    rewrite ED in D2. injection D2 as ->. exists t. split; [reflexivity|]. intro K. apply NU. rewrite EU. now apply encode_in_LF. }
  destruct EL as (t & -> & NT). rewrite removelast_snoc in H. destruct (debug && _) in H; [discriminate|]. destruct (debug && _) in H; [discriminate|].
  destruct (opt_all is_basic_text_end (last_opt t)) eqn:EE; [|discriminate]. injection H as ->. apply Forall_app in S. destruct S as [S _].
  split; [exact S|]. split; [apply (string_ok_prefix _ [LF]); [exact O|now apply ends_ok_iff]|]. split; [exact NT|]. now rewrite encode_snoc_LF in P.
Qed.
