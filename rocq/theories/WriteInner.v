(** close_into_inner and abandon_into_inner; one vectored write. *)
From Coq Require Import NArith Arith List Bool Lia.
From Verif Require Import Base Ucd Norm Chars TextTables TextUtils NormFacts CharFacts SpecText TextFacts PipelineFacts
  IsoFacts KeepFacts Utf8 Utf8Facts Input Output SpecWrite WriteFacts WriteProps FuzzProps StdIo SpecStd StdProps.
Import ListNotations.
Local Open Scope N_scope.
Local Opaque pipeline.

Lemma ops_end : forall cr p o ops rs w, do_ops (new_writer cr false (mksink p o false)) ops = (rs, w) -> Forall plain_op ops ->
  refines cr (snd (spec_ops cr (new_doc p o) ops)) w /\ map ok rs = fst (spec_ops cr (new_doc p o) ops).
Proof.
  intros cr p o ops rs w H HP. destruct (ops_refine ops cr _ _ (new_refines cr p o) HP) as [RS R]. rewrite H in RS, R. auto.
Qed.
Theorem into_inner_iff : forall cr p o ops rs w, do_ops (new_writer cr false (mksink p o false)) ops = (rs, w) -> Forall plain_op ops ->
  let d := snd (spec_ops cr (new_doc p o) ops) in
  (fst (close_into_inner w) = None <-> failed d = true \/ line_terminated (text d)) /\
  (fst (close_into_inner w) = None -> inner (snd (close_into_inner w)) = inner w).
Proof.
  intros cr p o ops rs w H HP d. destruct (ops_end _ _ _ _ _ _ H HP) as [R _]. fold d in R.
  assert (G : exists g, wst w = WGround g) by (eapply refines_ground; eauto). destruct G as [g EG].
  split; [|unfold close_into_inner, check_nl; rewrite EG; destruct g; [reflexivity|discriminate|discriminate]].
  destruct R as (_ & _ & _ & _ & _ & _ & R). unfold close_into_inner, check_nl. destruct (failed d) eqn:EF.
  - rewrite R. split; [now left|reflexivity].
  - destruct R as (_ & _ & ->). rewrite <- ground_newline. destruct (text_ground (text d)); cbn [fst]; split; intro K; try reflexivity; try discriminate; try (now right); destruct K; discriminate.
Qed.
Theorem into_inner_complete : forall cr p o ops rs w w', do_ops (new_writer cr false (mksink p o false)) ops = (rs, w) -> Forall plain_op ops ->
  close_into_inner w = (None, w') -> abandoned (inner w') = false ->
  let t := concat (map op_text ops) in
  emitted (inner w') = p ++ as_sent cr t /\ line_terminated t /\ Forall allowed t /\ Forall2 (fun o r => is_write o = true -> r = None) ops rs.
Proof.
  intros cr p o ops rs w w' H HP HC HA t. destruct (into_inner_iff _ _ _ _ _ _ H HP) as [IFF SAME]. rewrite HC in IFF, SAME. cbn [fst snd] in IFF, SAME.
  rewrite (SAME eq_refl) in *. destruct (ops_end _ _ _ _ _ _ H HP) as [R RS].
  pose proof (ops_sound ops cr p _ (new_sound cr p o) HP) as SD.
  destruct (spec_ops cr (new_doc p o) ops) as [bs d] eqn:ED. cbn [fst snd] in *.
  destruct R as (_ & _ & _ & EM & AB & _). assert (EF : failed d = false) by congruence.
  destruct (proj1 IFF eq_refl) as [K|LT]; [congruence|].
  destruct (ops_text_added _ _ _ _ _ ED EF) as (_ & TX & W). cbn in TX. fold t in TX.
  destruct SD as (t0 & rest & A & E & K). destruct (K EF) as [-> ->]. rewrite app_nil_r in E. rewrite TX in *.
  split; [congruence|]. split; [exact LT|]. split; [exact A|]. apply Forall2_ok. now rewrite RS.
Qed.
Theorem abandon_into_inner_spec : forall w, abandon_into_inner w = inner w.
Proof. intro w. reflexivity. Qed.

(** * One vectored write *)
Theorem write_vectored_first : forall w pre b post, Forall (fun x : list N => x = []) pre -> b <> [] ->
  write_vectored w (pre ++ b :: post) = write_bytes w b.
Proof.
  intros w pre b post F NE. unfold write_vectored. induction F as [|x pre E F IH]; cbn [app find]; [destruct b; [congruence|reflexivity]|]. subst x. exact IH.
Qed.
Theorem write_vectored_empty : forall w bufs, Forall (fun x : list N => x = []) bufs -> write_vectored w bufs = write_bytes w [].
Proof. intros w bufs F. unfold write_vectored. induction F as [|x bufs E F IH]; [reflexivity|]. subst x. exact IH. Qed.
Theorem write_one : forall w s rest, scalars s -> decode1 rest = None \/ rest = [] ->
  write_bytes w (encode_all s ++ rest) =
    match s, rest with
    | [], _ :: _ => (None, Some EWUtf8, prepare_failure w)
    | _, _ => let '(r, w') := write_str w s in (match r with None => Some (length (encode_all s)) | Some _ => None end, r, w')
    end.
Proof.
  intros w s rest SC D. unfold write_bytes. destruct rest as [|x rest].
  - rewrite app_nil_r, decode_encode_all by exact SC. destruct s; reflexivity.
  - destruct D as [D|D]; [|discriminate]. rewrite (decode_encode s (x :: rest)) by assumption. destruct s as [|c s]; [reflexivity|]. destruct (write_str w (c :: s)) as [[e|] w1]; [reflexivity|].
    now rewrite app_length, Nat.add_sub.
Qed.
