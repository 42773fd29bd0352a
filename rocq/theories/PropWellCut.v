(** C69 and C92 with nothing assumed about the text: only how the reads are cut matters. *)
From Coq Require Import NArith List Bool Lia.
From Verif Require Import Base Ucd Chars TextUtils CharFacts SpecText TextFacts IsoFacts Input SpecRead SpecEscape EscapeFacts EscapeRun EscapeCheck ReadProps SpecConv SpecCat CatProps SpecPush PushProps SpecNewlines SpecGap SpecCut CutProps SpecCertain CertainFacts CertainProps SpecWellCut WellCut.
Import ListNotations.
Local Open Scope N_scope.

(** ** C92 *)
(** Two streams that differ in how their lines end, of any text.  If the first one is not
    read again between U+34F and an unassigned character, the texts delivered are equal
    exactly if the second one is not either. *)
Theorem C92_exact : forall nel lsps s1 s2 o1 o2, gives nel lsps s1 o1 -> gives nel lsps s2 o2 -> bom_visible s1 -> bom_visible s2 ->
  Forall2 same_lines (segments_read s1) (segments_read s2) -> Forall2 whole_ends (segments_read s1) (segments_read s2) ->
  well_cut nel lsps s1 -> (o1 = o2 <-> well_cut nel lsps s2).
Proof. exact newlines_exact. Qed.
Print Assumptions C92_exact.
(** In particular if no unassigned character follows U+34F, or if each stream is one read. *)
Theorem C92_well_cut : forall nel lsps s, settled_segments nel lsps (segments_read s) \/ (exists cs, s = [Chunk cs End]) -> well_cut nel lsps s.
Proof. intros nel lsps s [H|[cs ->]]; [now apply settled_well|apply one_read_well]. Qed.
Print Assumptions C92_well_cut.
(** U+34F, an unassigned character and a line end; with U+D U+A, cut where it does not
    matter, and where it does. *)
Definition lf_at_once : list event := [Chunk [0x61; 0x34F; 0x378; 0xA] End].
Definition crlf_cut_well : list event := [Chunk [0x61] Active; Chunk [0x34F; 0x378; 0xD; 0xA] End].
Definition crlf_cut_badly : list event := [Chunk [0x61; 0x34F] Active; Chunk [0x378; 0xD; 0xA] End].
Ltac given := exists [136; 136; 136]%nat; do 3 eexists; split; [vm_compute; reflexivity|]; split; [first [eexists []; do 2 eexists; reflexivity|eexists [_]; do 2 eexists; reflexivity|eexists [_; _]; do 2 eexists; reflexivity]|vm_compute; reflexivity].
Lemma no_odd : forall s t, ~ In 0x5B s -> whole_ends s t.
Proof. intros s t H. left. intros (a & b & ->). apply H, in_or_app. right. right. now left. Qed.
Example C92_exact_example : gives false false lf_at_once [0x61; 0x34F; 0x378; 0xA] /\ gives false false crlf_cut_well [0x61; 0x34F; 0x378; 0xA] /\
  gives false false crlf_cut_badly [0x61; 0x34F; 0x34F; 0x378; 0x34F; 0xA] /\ well_cut false false lf_at_once /\ well_cut false false crlf_cut_well /\ ~ well_cut false false crlf_cut_badly.
Proof.
  assert (G1 : gives false false lf_at_once [0x61; 0x34F; 0x378; 0xA]) by given.
  assert (G2 : gives false false crlf_cut_well [0x61; 0x34F; 0x378; 0xA]) by given.
  assert (G3 : gives false false crlf_cut_badly [0x61; 0x34F; 0x34F; 0x378; 0x34F; 0xA]) by given.
  assert (S : same_lines [0x61; 0x34F; 0x378; 0xA] [0x61; 0x34F; 0x378; 0xD; 0xA]) by (do 3 (apply sl_char; [discriminate|discriminate|]); apply sl_crlf, sl_nil).
  assert (W : whole_ends [0x61; 0x34F; 0x378; 0xA] [0x61; 0x34F; 0x378; 0xD; 0xA]) by (apply no_odd; intros [K|[K|[K|[K|[]]]]]; discriminate).
  assert (C1 : well_cut false false lf_at_once) by apply one_read_well.
  do 4 (split; [assumption|]). split.
  - apply (newlines_exact false false lf_at_once crlf_cut_well _ _ G1 G2); [left; discriminate|left; discriminate| | |exact C1|reflexivity]; constructor; auto.
  - intro K. apply (newlines_exact false false lf_at_once crlf_cut_badly _ _ G1 G3) in K; [discriminate|left; discriminate|left; discriminate| | |exact C1]; constructor; auto.
Qed.

(** ** C69 *)
(** Two streams with pushes anywhere, of any text, and the one after the other, when the
    last text of the first one ([a]) ends with a line end.  If the two are not read again
    between U+34F and an unassigned character, the texts are concatenated exactly if the
    third is not either; when the second text does not begin with a starter, without the
    U+34F at its beginning. *)
Theorem C69_exact : forall nel lsps s1 s2 s3 o1 o2 o3 p a b q, bom_visible s1 -> bom_visible s2 -> bom_visible s3 ->
  gives nel lsps s1 o1 -> gives nel lsps s2 o2 -> gives nel lsps s3 o3 ->
  segments_read s1 = p ++ [a] -> segments_read s2 = b :: q -> segments_read s3 = p ++ (a ++ b) :: q ->
  well_cut nel lsps s1 -> well_cut nel lsps s2 -> ends_line nel lsps a ->
  (begins_ok nel lsps b -> (o3 = o1 ++ o2 <-> well_cut nel lsps s3)) /\
  (~ begins_ok nel lsps b -> exists y, o2 = 0x34F :: y /\ (o3 = o1 ++ y <-> well_cut nel lsps s3)).
Proof. exact cat_exact. Qed.
Print Assumptions C69_exact.
(** The same with a push between the two. *)
Theorem C69_push_exact : forall nel lsps s1 s2 s3 o1 o2 o3, bom_visible s1 -> bom_visible s2 -> bom_visible s3 ->
  gives nel lsps s1 o1 -> gives nel lsps s2 o2 -> gives nel lsps s3 o3 -> segments_read s3 = segments_read s1 ++ segments_read s2 ->
  well_cut nel lsps s1 -> well_cut nel lsps s2 -> whole_lines nel lsps (segments_read s1) -> (o3 = o1 ++ o2 <-> well_cut nel lsps s3).
Proof. exact cat_push_exact. Qed.
Print Assumptions C69_push_exact.
(** "a U+34F U+378 LF" and "b", as they are and as one stream. *)
Definition second_part : list event := [Chunk [0x62] End].
Definition both_well : list event := [Chunk [0x61; 0x34F; 0x378; 0xA; 0x62] End].
Definition both_badly : list event := [Chunk [0x61; 0x34F] Active; Chunk [0x378; 0xA; 0x62] End].
Example C69_exact_example : gives false false lf_at_once [0x61; 0x34F; 0x378; 0xA] /\ gives false false second_part [0x62; 0xA] /\
  gives false false both_well [0x61; 0x34F; 0x378; 0xA; 0x62; 0xA] /\ gives false false both_badly [0x61; 0x34F; 0x34F; 0x378; 0x34F; 0xA; 0x62; 0xA] /\
  segments_read lf_at_once = [] ++ [[0x61; 0x34F; 0x378; 0xA]] /\ segments_read second_part = [[0x62]] /\ segments_read both_badly = [] ++ [[0x61; 0x34F; 0x378; 0xA] ++ [0x62]] /\
  segments_read both_well = segments_read both_badly /\ well_cut false false lf_at_once /\ well_cut false false second_part /\
  ends_line false false [0x61; 0x34F; 0x378; 0xA] /\ begins_ok false false [0x62] /\ well_cut false false both_well /\ ~ well_cut false false both_badly.
Proof.
  assert (C : forall c rest rs, c <> 0xD -> c <> 0xC -> c <> 0x1B -> char_rep false false c = [c] -> replaced true (char_rep false false) rest rs ->
    longest true (char_rep false false) [c] ([c] ++ rest) -> replaced true (char_rep false false) (c :: rest) ([c] :: rs)).
  { intros c rest rs H1 H2 H3 HR R L. change (c :: rest) with ([c] ++ rest). rewrite <- HR at 2. apply replaced_cons; [now constructor|exact L|exact R]. }
  assert (EL : ends_line false false [0x61; 0x34F; 0x378; 0xA]).
  { exists [0x61; 0x34F; 0x378], [[0x61]; [0x34F]; [0x378]; [0xA]]. split; [reflexivity|]. split; [|reflexivity].
    do 4 (apply C; [discriminate|discriminate|discriminate|vm_compute; reflexivity| |apply longest_check; vm_compute; reflexivity]). constructor. }
  assert (BO : begins_ok false false [0x62]).
  { assert (R : replaced true (char_rep false false) [0x62] [[0x62]]).
    { do 1 (apply C; [discriminate|discriminate|discriminate|vm_compute; reflexivity| |apply longest_check; vm_compute; reflexivity]). constructor. }
    intros rs K. rewrite (replaced_det _ _ _ _ K _ R). intros c t E. injection E as <- <-. vm_compute. reflexivity. }
  assert (G1 : gives false false lf_at_once [0x61; 0x34F; 0x378; 0xA]) by given. assert (G2 : gives false false second_part [0x62; 0xA]) by given.
  assert (G3 : gives false false both_badly [0x61; 0x34F; 0x34F; 0x378; 0x34F; 0xA; 0x62; 0xA]) by given.
  split; [exact G1|]. split; [exact G2|]. split; [given|]. split; [exact G3|]. do 4 (split; [reflexivity|]). split; [apply one_read_well|]. split; [apply one_read_well|].
  split; [exact EL|]. split; [exact BO|]. split; [apply one_read_well|]. intro K.
  apply (proj1 (cat_exact false false lf_at_once second_part both_badly _ _ _ [] _ [0x62] [] ltac:(left; discriminate) ltac:(left; discriminate) ltac:(left; discriminate) G1 G2 G3
    eq_refl eq_refl eq_refl (one_read_well _ _ _) (one_read_well _ _ _) EL) BO) in K. discriminate.
Qed.
