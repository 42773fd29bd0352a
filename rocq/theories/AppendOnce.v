(** Text written behind text that was cut off, read at once. *)
From Coq Require Import NArith Arith List Bool Lia ZifyBool ZifyNat ZifyN.
From Verif Require DebugProps.
From Verif Require Import Base Ucd UcdTables Norm Chars TextTables TextUtils UcdFacts NormFacts CharFacts DocTable SpecText TextFacts PipelineFacts DocFacts IsoFacts
  Utf8 Utf8Facts SpecUtf8 Utf8Lossy Input Output ReadFacts ReadInv ReadSession SpecRead ReadChunk SpecEscape EscapeFacts EscapeRun ReadProps KeepFacts ReadPieces SpecConv ConvFacts
  SpecWrite WriteFacts WriteProps Strings StringFacts ConcatFacts EdgeFacts SpecString StringProps ScalarFacts LossyProps SpecMore CanonProps SpecColour ColourProps SpecCat CatProps SpecCrash CrashProps SpecDamage DamageProps CrashColour DamageColour SeekProps SeekColour AppendColour.
Import ListNotations.
Local Open Scope N_scope.
Arguments N.add : simpl never.
Arguments N.leb : simpl never.
Arguments N.ltb : simpl never.
Arguments N.eqb : simpl never.
Local Opaque pipeline.

Section Append.
Variables (bom cr cr2 nel lsps : bool) (u t p tp r f wf u2 l b : list N).
Hypotheses (U : uncoloured u t) (ST : scalars t) (CP : coloured_lines p tp) (PT : preceded tp) (ET : u = p ++ r) (UF : uncoloured f wf) (SF : scalars wf)
  (C2 : coloured_lines u2 l) (PL : preceded l) (CUT : cut_off bom cr u b) (SV : survives bom cr p b) (NS : new_start f b).
Lemma tail_text : forall h, lossy_decoding (h ++ encode_all (as_sent cr2 f) ++ line_mark cr2) (utf8_lossy h ++ as_sent cr2 f ++ line_mark cr2).
Proof.
  intro h. assert (EM : encode_all (line_mark cr2) = line_mark cr2) by (destruct cr2; reflexivity).
  assert (SS : scalars (as_sent cr2 f ++ line_mark cr2)) by (apply Forall_app; split; [exact (stored_scalars false cr2 f (unc_scalars f wf UF SF))|destruct cr2; repeat constructor]).
  rewrite <- EM at 1. rewrite <- encode_all_app. apply decoding_app; [|apply utf8_lossy_spec|].
  - destruct (as_sent cr2 f ++ line_mark cr2) as [|c z]; [intros b' r' E; discriminate|]. apply encode_first.
  - pose proof (decoding_valid _ [] [] SS decoding_nil) as K. now rewrite !app_nil_r in K.
Qed.
Theorem colour_append_at_once : forall x o, lossy_decoding (b ++ encode_all (as_sent cr2 (f ++ 0xA :: u2))) x -> gives nel lsps [Chunk x End] o -> exists y, o = tp ++ y ++ 0xA :: l.
Proof.
  intros x o X G. destruct CUT as [z CZ]. rewrite sent_line in X. pose proof (unc_scalars u t U ST) as SU.
  destruct p as [|p0 p'] eqn:EP.
  - assert (TP : tp = []) by (destruct CP as (K & _); now inversion K). rewrite TP. clear TP.
    destruct (unc_stored bom cr u t U) as [w W]. pose proof (tail_text b) as D. rewrite app_assoc in X.
    set (d := utf8_lossy b ++ as_sent cr2 f ++ line_mark cr2) in *.
    assert (EL : ends_line nel lsps (without_bom (d ++ [0xA]))).
    { destruct (bom_line d) as (q & x1 & -> & E & PQ). apply (tail_line nel lsps cr2 _ w b f wf W (stored_scalars bom cr u SU) CUT UF NS q x1); [exact PQ|exact E]. }
    destruct (colour_first_at_once cr2 nel lsps _ u2 l d C2 D EL x o PL X G) as (y & -> & _). now exists y.
  - rewrite <- EP in *. assert (NP : p <> []) by (rewrite EP; discriminate). destruct SV as [h EH].
    assert (EZ : encode_all (as_sent cr r) = h ++ z).
    { apply (app_inv_head (encode_all (stored bom cr p))). rewrite <- encode_all_app, <- stored_app, <- ET, CZ, EH. now rewrite app_assoc. }
    destruct (unc_from u t U p r ET) as [tr UR]. rewrite ET in SU. apply Forall_app in SU. destruct SU as [SP SR]. pose proof (tail_text h) as D.
    rewrite EH in X. rewrite <- !app_assoc in X. rewrite (app_assoc (encode_all (as_sent cr2 f))), (app_assoc h) in X.
    assert (NH : new_start f h).
    { destruct NS as [K|[K|K]]; [now left|right; now left|right; right]. intros d DD. destruct (K (stored bom cr p ++ d)) as [w W]; [rewrite EH; now apply decoding_valid; [apply stored_scalars|]|]. exact (unc_from _ _ W (stored bom cr p) d eq_refl). }
    assert (EL : ends_line nel lsps ((utf8_lossy h ++ as_sent cr2 f ++ line_mark cr2) ++ [0xA])).
    { apply (tail_line nel lsps cr2 (as_sent cr r) (as_sent cr tr) h f wf (unc_sent cr r tr UR) (stored_scalars false cr r SR) (ex_intro _ z EZ) UF NH []); [now left|reflexivity]. }
    destruct (colour_damage_at_once bom cr cr2 nel lsps p tp _ u2 l _ CP C2 D EL NP x o PT PL X G) as (y & -> & _). now exists y.
Qed.
End Append.
(** Text without colours. *)
Lemma plain_uncoloured : forall t, ~ In 0x1B t -> uncoloured t t.
Proof. induction t as [|c t IH]; intro N; [exact unc_nil|]. apply unc_char; [intros ->; apply N; now left|]. apply IH. intro K. apply N. now right. Qed.
Lemma allowed_plain : forall t, Forall allowed t -> ~ In 0x1B t.
Proof. intros t A I. rewrite Forall_forall in A. specialize (A _ I). vm_compute in A. discriminate. Qed.
Lemma cut_plain : forall bom cr t b d, Forall allowed t -> scalars t -> cut_off bom cr t b -> lossy_decoding b d -> uncoloured d d.
Proof.
  intros bom cr t b d A S B D. destruct (bytes_cut (stored bom cr t) b B) as (q & r & k & E & -> & H). pose proof (stored_scalars bom cr t S) as SS. rewrite E in SS. rewrite (cut_decoding q r k d SS H D). apply plain_uncoloured.
  destruct (unc_stored bom cr t t (plain_uncoloured t (allowed_plain t A))) as [w W].
  assert (NS : ~ In 0x1B (stored bom cr t)).
  { intro K. unfold stored in K. apply in_app_or in K. destruct K as [K|K]; [destruct bom; [destruct K as [K|[]]; discriminate|destruct K]|]. destruct cr; [|exact (allowed_plain t A K)].
    clear - A K. induction t as [|c t IH]; [exact K|]. change (c :: t) with ([c] ++ t) in K. rewrite as_sent_app in K. apply in_app_or in K. destruct K as [K|K]; [|exact (IH (Forall_inv_tail A) K)].
    pose proof (allowed_plain [c] (Forall_cons _ (Forall_inv A) (Forall_nil _))) as N. cbn in K, N. destruct (c =? 10); cbn in K; [destruct K as [K|[K|[]]]; discriminate|tauto]. }
  rewrite E in NS. intro K. apply in_app_or in K. destruct K as [K|K]; [apply NS, in_or_app; now left|]. destruct k; [destruct K|destruct K as [K|[]]; discriminate].
Qed.
Theorem append_at_once : forall bom cr cr2 nel lsps t p r f l b, Forall allowed t -> scalars t -> whole_lines p -> preceded p -> t = p ++ r -> Forall allowed f -> scalars f -> whole_lines l -> preceded l -> cut_off bom cr t b -> survives bom cr p b ->
  forall x o, lossy_decoding (b ++ encode_all (as_sent cr2 (f ++ 0xA :: l))) x -> gives nel lsps [Chunk x End] o -> exists y, o = p ++ y ++ 0xA :: l.
Proof.
  intros bom cr cr2 nel lsps t p r f l b AT ST WP PP ET AF SF WL PL CUT SV x o X G. pose proof (allowed_plain t AT) as NT.
  assert (NP : ~ In 0x1B p) by (intro K; apply NT; rewrite ET; apply in_or_app; now left).
  assert (NL : ~ In 0x1B l). { destruct WL as (OK & _). intro K. pose proof (whole_clean l OK) as C. rewrite Forall_forall in C. specialize (C _ K). vm_compute in C. discriminate C. }
  refine (colour_append_at_once bom cr cr2 nel lsps t t p p r f f l l b _ ST _ PP ET _ SF _ PL CUT SV _ x o X G).
  - now apply plain_uncoloured.
  - split; [now apply plain_uncoloured|]. split; [exact (proj1 (proj2 WP))|exact WP].
  - apply plain_uncoloured. now apply allowed_plain.
  - split; [now apply plain_uncoloured|]. split; [exact (proj1 (proj2 WL))|exact WL].
  - right. right. intros d D. exists d. exact (cut_plain bom cr t b d AT ST CUT D).
Qed.
