(** Reading from any byte of a stream on. *)
From Coq Require Import NArith Arith List Bool Lia ZifyBool ZifyNat ZifyN.
From Verif Require Import Base Ucd UcdTables Norm Chars TextTables TextUtils UcdFacts NormFacts CharFacts DocTable SpecText TextFacts PipelineFacts DocFacts IsoFacts
  Utf8 Utf8Facts SpecUtf8 Utf8Lossy Input Output ReadFacts ReadInv ReadSession SpecRead ReadChunk SpecEscape EscapeFacts EscapeRun ReadProps KeepFacts ReadPieces SpecConv ConvFacts DocProps CatProps
  SpecWrite WriteFacts WriteProps Strings StringFacts ConcatFacts EdgeFacts SpecString StringProps ScalarFacts LossyProps JoinProps Fuzz FuzzProps SpecMore CanonProps SpecCat SpecCrash CrashProps SpecDamage DamageProps.
Import ListNotations.
Local Open Scope N_scope.
Arguments N.add : simpl never.
Arguments N.leb : simpl never.
Arguments N.ltb : simpl never.
Arguments N.eqb : simpl never.
Local Opaque pipeline.

Lemma bytes_from : forall s z b, encode_all s = z ++ b -> exists p q k, s = p ++ q /\ b = k ++ encode_all q /\ Forall (fun x => 0x80 <= x < 0xC0) k.
Proof.
  induction s as [|c s IH]; intros z b E.
  - symmetry in E. apply app_eq_nil in E. destruct E as [-> ->]. exists [], [], []. repeat split. constructor.
  - destruct z as [|z0 z]; [exists [], (c :: s), []; cbn [app] in E; rewrite E; repeat split; constructor|]. change (encode_all (c :: s)) with (encode c ++ encode_all s) in E. apply app_eq_app in E. destruct E as (l & [[E1 E2]|[E1 E2]]).
    + exists [c], s, l. split; [reflexivity|]. split; [exact E2|]. apply Forall_forall. intros x I. apply in_split in I. destruct I as (u & v & ->). apply (encode_later c ((z0 :: z) ++ u) v x); [|discriminate]. rewrite E1. now rewrite <- app_assoc.
    + destruct (IH l b E2) as (p & q & k & -> & -> & F). now exists (c :: p), q, k.
Qed.
Lemma continuation_decoding : forall k d, lossy_decoding k d -> Forall (fun x => 0x80 <= x < 0xC0) k -> Forall (fun c => c = 0xFFFD) d.
Proof.
  intros k d D. induction D as [|c t r SC D IH|m t r M D IH]; intro F; [constructor| |].
  - exfalso. destruct (encode c ++ t) as [|x u] eqn:E; [destruct (encode c) eqn:EC; [|discriminate]; unfold encode in EC; repeat match type of EC with (if ?b then _ else _) = _ => destruct b end; discriminate|].
    pose proof (encode_first c t x u E). pose proof (Forall_inv F). cbn beta in *. lia.
  - apply Forall_app in F. destruct F as [_ F]. constructor; auto.
Qed.
Lemma from_decoding : forall s z b d, scalars s -> encode_all s = z ++ b -> lossy_decoding b d -> exists p q n, s = p ++ q /\ d = repeat 0xFFFD n ++ q.
Proof.
  intros s z b d S E D. destruct (bytes_from s z b E) as (p & q & k & -> & -> & F). exists p, q. apply Forall_app in S. destruct S as [_ S].
  assert (K : d = utf8_lossy k ++ q).
  { apply (lossy_decoding_unique _ _ _ D). apply decoding_app; [|apply utf8_lossy_spec|].
    - destruct q as [|c q]; [intros x r X; discriminate|]. apply encode_first.
    - pose proof (decoding_valid q [] [] S decoding_nil) as K. now rewrite !app_nil_r in K. }
  pose proof (continuation_decoding k _ (utf8_lossy_spec k) F) as G. exists (length (utf8_lossy k)). split; [reflexivity|]. rewrite K at 1. f_equal. clear - G. induction G as [|c l -> G IH]; [reflexivity|]. cbn [length repeat]. now f_equal.
Qed.
(** The bytes [g], then a line end and the lines [l]. *)
Section Seek.
Variables (bom cr nel lsps : bool) (t l z g : list N).
Hypothesis OT : Forall allowed t.
Hypothesis ST : scalars t.
Hypothesis AT : Forall (fun c => is_assigned c = true) t.
Hypothesis WL : whole_lines l.
Hypothesis AL : Forall (fun c => is_assigned c = true) l.
Hypothesis CUT : encode_all (stored bom cr t) = z ++ g ++ [0xA] ++ encode_all (as_sent cr l).
Lemma seek_esc : ~ In 0x1B g.
Proof. intro I. apply (stored_no_esc bom cr t ltac:(now apply Forall_allowed_clean)). rewrite CUT. apply in_or_app. right. apply in_or_app. now left. Qed.
Lemma seek_assigned : forall d, lossy_decoding g d -> Forall (fun c => is_assigned c = true) (d ++ [0xA]).
Proof.
  intros d D. rewrite (app_assoc g) in CUT. rewrite app_assoc in CUT.
  assert (X : lossy_decoding (g ++ [0xA] ++ encode_all (as_sent cr l)) (d ++ 0xA :: as_sent cr l)).
  { cbn [app]. apply decoding_parts; [lia|exact D|]. destruct WL as (_ & _ & SL). pose proof (decoding_valid (as_sent cr l) [] [] (stored_scalars false cr l SL) decoding_nil) as K. now rewrite !app_nil_r in K. }
  rewrite <- !app_assoc in CUT. destruct (from_decoding _ z _ _ (stored_scalars bom cr t ST) CUT X) as (p & q & n & E & EX).
  pose proof (sent_assigned bom cr t AT) as A. rewrite E in A. apply Forall_app in A. destruct A as [_ A].
  assert (K : Forall (fun c => is_assigned c = true) (d ++ 0xA :: as_sent cr l)).
  { rewrite EX. apply Forall_app. split; [|exact A]. clear. induction n; [constructor|]. constructor; [vm_compute; reflexivity|assumption]. }
  apply Forall_app in K. destruct K as [K _]. apply Forall_app. split; [exact K|repeat constructor].
Qed.
Theorem seek_read : forall sc o, lossy_decoding (g ++ [0xA] ++ encode_all (as_sent cr l)) (stream_text sc) -> regular sc -> gives nel lsps sc o -> exists y, o = y ++ 0xA :: l.
Proof.
  intros sc o X RG G.
  destruct (damage_first cr nel lsps g l (utf8_lossy g) WL seek_esc (utf8_lossy_spec g) AL sc o) with (2 := X) (3 := RG) (4 := G) as (y & -> & _); [|now exists y].
  intros rs R. apply (unguarded_assigned _ _ _ _ R). pose proof (seek_assigned _ (utf8_lossy_spec g)) as A1. destruct (utf8_lossy g ++ [0xA]) as [|c w]; [exact A1|]. cbn [without_bom]. destruct (c =? 0xFEFF); [now inversion A1|exact A1].
Qed.
Theorem seek_at_once : forall x o, preceded l -> lossy_decoding (g ++ [0xA] ++ encode_all (as_sent cr l)) x -> gives nel lsps [Chunk x End] o -> exists y, o = y ++ 0xA :: l.
Proof.
  intros x o P X G. destruct (damage_first_at_once cr nel lsps g l (utf8_lossy g) WL seek_esc (utf8_lossy_spec g) x o P X G) as (y & -> & _). now exists y.
Qed.
End Seek.
