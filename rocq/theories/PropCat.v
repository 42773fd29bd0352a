(** Reading texts one after the other: C69, C70. *)
From Coq Require Import NArith List Bool.
From Verif Require Import Base Chars TextUtils Input SpecText SpecRead SpecEscape SpecConv IsoFacts ReadSession EscapeFacts EscapeCheck EscapeRun ReadProps LossyProps SpecCat CatProps SpecPush PushProps CatPush SpecGap GapProps.
Import ListNotations.
Local Open Scope N_scope.

Ltac cut_step m :=
  match goal with |- replaced _ _ ?s _ => let rest := eval vm_compute in (skipn (length m) s) in change s with (m ++ rest) end;
  apply replaced_cons; [|apply longest_check; vm_compute; reflexivity|].
Ltac cut_char c := cut_step [c]; [match goal with |- row _ (char_rep ?n ?l) _ ?r => change r with (char_rep n l c) end; constructor; discriminate|].
Ltac no_pushes := let H := fresh in intros ? H; repeat (destruct H as [H|H]; [discriminate H|]); exact H.
Ltac is_given sizes n := exists sizes; do 3 eexists; split; [vm_compute; reflexivity|]; split; [exists n; do 2 eexists; reflexivity|vm_compute; reflexivity].

(** ** C69 *)
(** Two streams, and the stream that is one after the other, cut into reads in
    any way.  When the first one ends with a line end, converting before or
    after is the same exactly when the second one begins with a Basic Text
    starter; otherwise only the U+34F in front of it is missing. *)
Theorem C69_concatenation_partial : forall nel lsps s1 s2 s3 o1 o2 o3, regular s1 -> regular s2 -> regular s3 ->
  gives nel lsps s1 o1 -> gives nel lsps s2 o2 -> gives nel lsps s3 o3 ->
  stream_text s3 = stream_text s1 ++ stream_text s2 -> settled nel lsps (without_bom (stream_text s3)) ->
  ends_line nel lsps (without_bom (stream_text s1)) -> (forall t, stream_text s2 <> 0xFEFF :: t) ->
  (o3 = o1 ++ o2 <-> begins_ok nel lsps (stream_text s2)) /\
  (~ begins_ok nel lsps (stream_text s2) -> exists y, o2 = 0x34F :: y /\ o3 = o1 ++ y).
Proof. exact session_cat. Qed.
Print Assumptions C69_concatenation_partial.
(** "a ESC [ m CR LF" and "ESC c b", with the cut of the third stream inside the
    escape sequence. *)
Definition ex69_1 : list event := [Chunk [0x61; 0x1B; 0x5B; 0x6D; 0xD; 0xA] End].
Definition ex69_2 : list event := [Chunk [0x1B; 0x63; 0x62] End].
Definition ex69_3 : list event := [Chunk [0x61; 0x1B; 0x5B] Active; Chunk [0x6D; 0xD; 0xA; 0x1B] Active; Chunk [0x63; 0x62] End].
Lemma plain_settled : forall nel lsps text, ~ In 0x34F text -> settled nel lsps text.
Proof. intros nel lsps text H rs R. eapply simple_unguarded; [exact R|]. now right. Qed.
Lemma replaced_once : forall can rep s rs1 rs2, replaced can rep s rs1 -> replaced can rep s rs2 -> rs1 = rs2.
Proof. intros can rep s rs1 rs2 H1 H2. exact (replaced_det _ _ _ _ H1 _ H2). Qed.
Example C69_example : regular ex69_1 /\ regular ex69_2 /\ regular ex69_3 /\
  gives false false ex69_1 [0x61; 0xA] /\ gives false false ex69_2 [0x62; 0xA] /\ gives false false ex69_3 [0x61; 0xA; 0x62; 0xA] /\
  stream_text ex69_3 = stream_text ex69_1 ++ stream_text ex69_2 /\ settled false false (without_bom (stream_text ex69_3)) /\
  ends_line false false (without_bom (stream_text ex69_1)) /\ begins_ok false false (stream_text ex69_2).
Proof.
  split; [split; [no_pushes|left; discriminate]|]. split; [split; [no_pushes|left; discriminate]|]. split; [split; [no_pushes|left; discriminate]|].
  split; [is_given [136%nat] (@nil (read_result * list N))|]. split; [is_given [136%nat] (@nil (read_result * list N))|].
  split. { exists [136; 136; 136]%nat. do 3 eexists. split; [vm_compute; reflexivity|]. split; [eexists [_; _]; do 2 eexists; reflexivity|vm_compute; reflexivity]. }
  split; [reflexivity|]. split; [apply plain_settled; intro H; vm_compute in H; repeat (destruct H as [H|H]; [discriminate H|]); exact H|]. split.
  - exists [0x61; 0x1B; 0x5B; 0x6D; 0xD], [[0x61]; []; [0xA]]. split; [reflexivity|]. split; [|reflexivity].
    change (without_bom (stream_text ex69_1)) with [0x61; 0x1B; 0x5B; 0x6D; 0xD; 0xA]. cut_char 0x61.
    cut_step [0x1B; 0x5B; 0x6D]; [apply (row_csi_final _ _ [0x1B] [] 0x6D); [split; [discriminate|repeat constructor]|constructor|left; split; discriminate]|].
    cut_step [0xD; 0xA]; [constructor|constructor].
  - intros rs R. assert (E : replaced true (char_rep false false) (stream_text ex69_2) [[]; [0x62]]).
    { change (stream_text ex69_2) with [0x1B; 0x63; 0x62].
      cut_step [0x1B; 0x63]; [apply (row_esc_final _ _ [0x1B] 0x63); [split; [discriminate|repeat constructor]|left; split; discriminate]|]. cut_char 0x62. constructor. }
    rewrite (replaced_once _ _ _ _ _ R E). intros c t K. injection K as <- _. vm_compute. reflexivity.
Qed.
(** The same with pushes anywhere in the two streams, when the last text before
    the end of the first one ([a]) ends with a line end; *)
Theorem C69_with_pushes : forall nel lsps s1 s2 s3 o1 o2 o3 p a b q, bom_visible s1 -> bom_visible s2 -> bom_visible s3 ->
  gives nel lsps s1 o1 -> gives nel lsps s2 o2 -> gives nel lsps s3 o3 ->
  segments_read s1 = p ++ [a] -> segments_read s2 = b :: q -> segments_read s3 = p ++ (a ++ b) :: q ->
  settled_segments nel lsps (segments_read s1) -> settled_segments nel lsps (segments_read s2) -> ends_line nel lsps a ->
  (o3 = o1 ++ o2 <-> begins_ok nel lsps b) /\ (~ begins_ok nel lsps b -> exists y, o2 = 0x34F :: y /\ o3 = o1 ++ y).
Proof. exact session_cat_pushes. Qed.
Print Assumptions C69_with_pushes.
(** and with a push between the two streams it does not matter how the second one
    begins, nor whether the line end belongs to U+D, U+85 or U+A. *)
Theorem C69_push_between : forall nel lsps s1 s2 s3 o1 o2 o3, bom_visible s1 -> bom_visible s2 -> bom_visible s3 ->
  gives nel lsps s1 o1 -> gives nel lsps s2 o2 -> gives nel lsps s3 o3 -> segments_read s3 = segments_read s1 ++ segments_read s2 ->
  settled_segments nel lsps (segments_read s1) -> settled_segments nel lsps (segments_read s2) ->
  whole_lines nel lsps (segments_read s1) -> o3 = o1 ++ o2.
Proof. exact session_cat_push_between. Qed.
Print Assumptions C69_push_between.
(** "a", a push, "b CR"; then an accent, a push, "c". *)
Definition ex69p_1 : list event := [Chunk [0x61] Push; Chunk [0x62; 0xD] End].
Definition ex69p_2 : list event := [Chunk [0x301] Push; Chunk [0x63] End].
Definition ex69p_3 : list event := [Chunk [0x61] Push; Chunk [0x62; 0xD] Push; Chunk [0x301] Push; Chunk [0x63] End].
Lemma plain_settled_segments : forall nel lsps segs rss, Forall2 (replaced true (char_rep nel lsps)) segs rss ->
  Forall (fun c => is_assigned c = true) (pushed_text rss) -> settled_segments nel lsps segs.
Proof.
  intros nel lsps segs rss F A rss' F'. assert (E : rss' = rss); [|subst; now apply assigned_unguarded].
  clear A. revert rss' F'. induction F as [|s r segs rss H F IH]; intros rss' F'; inversion F' as [|? r' ? rss'' H' F'']; subst; [reflexivity|].
  f_equal; [exact (replaced_once _ _ _ _ _ H' H)|now apply IH].
Qed.
Example C69_example_pushes : bom_visible ex69p_1 /\ bom_visible ex69p_2 /\ bom_visible ex69p_3 /\
  gives false false ex69p_1 [0x61; 0x62; 0xA] /\ gives false false ex69p_2 [0x34F; 0x301; 0x63; 0xA] /\ gives false false ex69p_3 [0x61; 0x62; 0xA; 0x34F; 0x301; 0x63; 0xA] /\
  segments_read ex69p_3 = segments_read ex69p_1 ++ segments_read ex69p_2 /\
  settled_segments false false (segments_read ex69p_1) /\ settled_segments false false (segments_read ex69p_2) /\ whole_lines false false (segments_read ex69p_1).
Proof.
  split; [left; discriminate|]. split; [left; discriminate|]. split; [left; discriminate|].
  split. { exists [136; 136]%nat. do 3 eexists. split; [vm_compute; reflexivity|]. split; [eexists [_]; do 2 eexists; reflexivity|vm_compute; reflexivity]. }
  split. { exists [136; 136]%nat. do 3 eexists. split; [vm_compute; reflexivity|]. split; [eexists [_]; do 2 eexists; reflexivity|vm_compute; reflexivity]. }
  split. { exists [136; 136; 136; 136]%nat. do 3 eexists. split; [vm_compute; reflexivity|]. split; [eexists [_; _; _]; do 2 eexists; reflexivity|vm_compute; reflexivity]. }
  split; [reflexivity|].
  assert (F1 : Forall2 (replaced true (char_rep false false)) (segments_read ex69p_1) [[[0x61]]; [[0x62]; [0xA]]]).
  { change (segments_read ex69p_1) with [[0x61]; [0x62; 0xD]]. constructor; [cut_char 0x61; constructor|]. constructor; [cut_char 0x62; cut_step [0xD]; [constructor|constructor]|constructor]. }
  assert (F2 : Forall2 (replaced true (char_rep false false)) (segments_read ex69p_2) [[[0x301]]; [[0x63]]]).
  { change (segments_read ex69p_2) with [[0x301]; [0x63]]. constructor; [cut_char 0x301; constructor|]. constructor; [cut_char 0x63; constructor|constructor]. }
  split; [apply (plain_settled_segments _ _ _ _ F1); apply Forall_forall; rewrite <- forallb_forall; vm_compute; reflexivity|].
  split; [apply (plain_settled_segments _ _ _ _ F2); apply Forall_forall; rewrite <- forallb_forall; vm_compute; reflexivity|].
  intros rss F. right. assert (E : rss = [[[0x61]]; [[0x62]; [0xA]]]); [|subst; reflexivity].
  inversion F as [|? r ? ? H1 F']; subst. inversion F' as [|? r' ? ? H2 F'']; subst. inversion F''; subst. inversion F1 as [|? ? ? ? K1 K]; subst. inversion K as [|? ? ? ? K2 _]; subst.
  now rewrite (replaced_once _ _ _ _ _ H1 K1), (replaced_once _ _ _ _ _ H2 K2).
Qed.
(** "a", a push, "b LF" run together with "c", a push, an accent. *)
Definition ex69q_1 : list event := [Chunk [0x61] Push; Chunk [0x62; 0xA] End].
Definition ex69q_2 : list event := [Chunk [0x63] Push; Chunk [0x301] End].
Definition ex69q_3 : list event := [Chunk [0x61] Push; Chunk [0x62; 0xA; 0x63] Push; Chunk [0x301] End].
Example C69_example_run_together : gives false false ex69q_1 [0x61; 0x62; 0xA] /\ gives false false ex69q_2 [0x63; 0x34F; 0x301; 0xA] /\
  gives false false ex69q_3 [0x61; 0x62; 0xA; 0x63; 0x34F; 0x301; 0xA] /\
  segments_read ex69q_1 = [[0x61]] ++ [[0x62; 0xA]] /\ segments_read ex69q_2 = [0x63] :: [[0x301]] /\ segments_read ex69q_3 = [[0x61]] ++ ([0x62; 0xA] ++ [0x63]) :: [[0x301]] /\
  ends_line false false [0x62; 0xA] /\ begins_ok false false [0x63].
Proof.
  split. { exists [136; 136]%nat. do 3 eexists. split; [vm_compute; reflexivity|]. split; [eexists [_]; do 2 eexists; reflexivity|vm_compute; reflexivity]. }
  split. { exists [136; 136]%nat. do 3 eexists. split; [vm_compute; reflexivity|]. split; [eexists [_]; do 2 eexists; reflexivity|vm_compute; reflexivity]. }
  split. { exists [136; 136; 136]%nat. do 3 eexists. split; [vm_compute; reflexivity|]. split; [eexists [_; _]; do 2 eexists; reflexivity|vm_compute; reflexivity]. }
  split; [reflexivity|]. split; [reflexivity|]. split; [reflexivity|]. split.
  - exists [0x62], [[0x62]; [0xA]]. split; [reflexivity|]. split; [cut_char 0x62; cut_char 0xA; constructor|reflexivity].
  - intros rs R. assert (E : replaced true (char_rep false false) [0x63] [[0x63]]) by (cut_char 0x63; constructor).
    rewrite (replaced_once _ _ _ _ _ R E). intros c t K. injection K as <- _. vm_compute. reflexivity.
Qed.
(** The conditions are needed: a first stream that ends with U+A inside an
    unterminated "ESC ]" sequence swallows the second one, *)
Theorem C69_whole_refuted : exists s1 s2 s3 o1 o2 o3, regular s1 /\ regular s2 /\ regular s3 /\
  gives false false s1 o1 /\ gives false false s2 o2 /\ gives false false s3 o3 /\
  stream_text s3 = stream_text s1 ++ stream_text s2 /\ last_opt (stream_text s1) = Some 0xA /\ stream_text s2 = [0x62; 0xA] /\
  o2 = [0x62; 0xA] /\ o3 = [0xA].
Proof.
  exists [Chunk [0x1B; 0x5D; 0xA] End], [Chunk [0x62; 0xA] End], [Chunk [0x1B; 0x5D; 0xA; 0x62; 0xA] End]. do 3 eexists.
  split; [split; [no_pushes|left; discriminate]|]. split; [split; [no_pushes|left; discriminate]|]. split; [split; [no_pushes|left; discriminate]|].
  split; [is_given [136%nat] (@nil (read_result * list N))|]. split; [is_given [136%nat] (@nil (read_result * list N))|]. split; [is_given [136%nat] (@nil (read_result * list N))|].
  repeat split; reflexivity.
Qed.
Print Assumptions C69_whole_refuted.
(** and a BOM at the beginning of the second one becomes U+2060. *)
Theorem C69_bom_refuted : exists s1 s2 s3 o1 o2 o3, regular s1 /\ regular s2 /\ regular s3 /\
  gives false false s1 o1 /\ gives false false s2 o2 /\ gives false false s3 o3 /\
  stream_text s3 = stream_text s1 ++ stream_text s2 /\ stream_text s1 = [0x61; 0xA] /\ o1 = [0x61; 0xA] /\ o2 = [0x62; 0xA] /\ o3 = [0x61; 0xA; 0x2060; 0x62; 0xA].
Proof.
  exists [Chunk [0x61; 0xA] End], [Chunk [0xFEFF; 0x62; 0xA] End], [Chunk [0x61; 0xA] Active; Chunk [0xFEFF; 0x62; 0xA] End]. do 3 eexists.
  split; [split; [no_pushes|left; discriminate]|]. split; [split; [no_pushes|right; do 4 eexists; reflexivity]|]. split; [split; [no_pushes|left; discriminate]|].
  split; [is_given [136%nat] (@nil (read_result * list N))|]. split; [is_given [136%nat] (@nil (read_result * list N))|].
  split. { exists [136; 136]%nat. do 3 eexists. split; [vm_compute; reflexivity|]. split; [eexists [_]; do 2 eexists; reflexivity|vm_compute; reflexivity]. }
  repeat split; reflexivity.
Qed.
Print Assumptions C69_bom_refuted.

(** ** C70 *)
(** Each text between pushes is replaced and guarded on its own; apart from that
    pushes have no effect. *)
Theorem C70_pushes : forall nel lsps script sizes out j rest rss, reads (new_input nel lsps) script sizes = (out, j, rest) -> reached_end out ->
  bom_visible script -> Forall2 (replaced true (char_rep nel lsps)) (segments_read script) rss -> unguarded_text (pushed_text rss) ->
  delivered out = coded_form (pushed_text rss).
Proof. intros. rewrite <- coded_pipeline. eapply session_pushed; eauto. Qed.
Print Assumptions C70_pushes.
(** Without the condition on U+34F, the text is converted in pieces. *)
Theorem C70_pushes_pieces : forall nel lsps script sizes out j rest rss, reads (new_input nel lsps) script sizes = (out, j, rest) -> reached_end out ->
  bom_visible script -> Forall2 (replaced true (char_rep nel lsps)) (segments_read script) rss ->
  exists pieces, concat pieces = pushed_text rss /\
    Forall (fun p => exists a x, p = a ++ [x] /\ (x = 0xA \/ x = 0x34F)) pieces /\ delivered out = concat (map coded_form pieces).
Proof.
  intros nel lsps script sizes out j rest rss H E B R. destruct (session_pushed_pieces _ _ _ _ _ _ _ _ H E B R) as (ps & P).
  exists ps. rewrite <- coded_pieces. exact P.
Qed.
Print Assumptions C70_pushes_pieces.
(** So two streams with pushes at the same places give the same text, however
    the reads are cut. *)
Theorem C70_same_pushes : forall nel lsps s1 s2 o1 o2 rss, gives nel lsps s1 o1 -> gives nel lsps s2 o2 -> bom_visible s1 -> bom_visible s2 ->
  segments s1 = segments s2 -> Forall2 (replaced true (char_rep nel lsps)) (segments_read s1) rss -> unguarded_text (pushed_text rss) -> o1 = o2.
Proof. exact session_segments. Qed.
Print Assumptions C70_same_pushes.
(** Pushes after lines change nothing. *)
Theorem C70_line_by_line : forall nel lsps s1 s2 o1 o2, gives nel lsps s1 o1 -> gives nel lsps s2 o2 -> bom_visible s1 -> regular s2 ->
  stream_text s1 = stream_text s2 -> settled nel lsps (without_bom (stream_text s1)) -> line_by_line nel lsps (segments_read s1) -> o1 = o2.
Proof. exact session_line_by_line. Qed.
Print Assumptions C70_line_by_line.
(** BOM, "a CR" pushed, then "LF e" in two reads and pushed, then an accent. *)
Definition ex70 : list event := [Chunk [0xFEFF; 0x61; 0xD] Push; Chunk [0xA] Active; Chunk [0x65] Push; Chunk [0x301] End].
Definition ex70_rows : list (list (list N)) := [[[0x61]; [0xA]]; [[0xA]; [0x65]]; [[0x301]]].
Example C70_example : bom_visible ex70 /\ Forall2 (replaced true (char_rep false false)) (segments_read ex70) ex70_rows /\
  unguarded_text (pushed_text ex70_rows) /\ gives false false ex70 [0x61; 0xA; 0xA; 0x65; 0x34F; 0x301; 0xA] /\
  pushed_text ex70_rows = [0x61; 0xA; 0xA; 0x65; 0x34F; 0x301; 0xA].
Proof.
  split; [right; do 4 eexists; reflexivity|]. split.
  - change (segments_read ex70) with [[0x61; 0xD]; [0xA; 0x65]; [0x301]].
    constructor; [cut_char 0x61; cut_step [0xD]; [constructor|constructor]|]. constructor; [cut_char 0xA; cut_char 0x65; constructor|]. constructor; [cut_char 0x301; constructor|constructor].
  - split; [apply assigned_unguarded; apply Forall_forall; rewrite <- forallb_forall; vm_compute; reflexivity|]. split; [|vm_compute; reflexivity].
    exists [136; 136; 136; 136]%nat. do 3 eexists. split; [vm_compute; reflexivity|]. split; [eexists [_; _; _]; do 2 eexists; reflexivity|vm_compute; reflexivity].
Qed.
Example C70_example_lines : line_by_line false false (segments_read [Chunk [0x61; 0xA] Push; Chunk [0x62] End]) /\
  gives false false [Chunk [0x61; 0xA] Push; Chunk [0x62] End] [0x61; 0xA; 0x62; 0xA].
Proof.
  split; [split|].
  - constructor; [|constructor]. exists [0x61], [[0x61]; [0xA]]. split; [reflexivity|]. split; [|reflexivity]. change (without_bom [0x61; 0xA]) with [0x61; 0xA]. cut_char 0x61. cut_char 0xA. constructor.
  - constructor; [|constructor]. intros rs R. assert (E : replaced true (char_rep false false) [0x62] [[0x62]]) by (cut_char 0x62; constructor).
    rewrite (replaced_once _ _ _ _ _ R E). intros c t K. injection K as <- _. vm_compute. reflexivity.
  - exists [136; 136]%nat. do 3 eexists. split; [vm_compute; reflexivity|]. split; [eexists [_]; do 2 eexists; reflexivity|vm_compute; reflexivity].
Qed.
(** Elsewhere a push can change the text: between CR and LF there are then two
    line ends. *)
Theorem C70_push_refuted : exists s1 s2 o1 o2, gives false false s1 o1 /\ gives false false s2 o2 /\ regular s2 /\ stream_text s1 = stream_text s2 /\
  o1 = [0xA; 0xA] /\ o2 = [0xA].
Proof.
  exists [Chunk [0xD] Push; Chunk [0xA] End], [Chunk [0xD] Active; Chunk [0xA] End]. do 2 eexists.
  split. { exists [136; 136]%nat. do 3 eexists. split; [vm_compute; reflexivity|]. split; [eexists [_]; do 2 eexists; reflexivity|vm_compute; reflexivity]. }
  split. { exists [136; 136]%nat. do 3 eexists. split; [vm_compute; reflexivity|]. split; [eexists [_]; do 2 eexists; reflexivity|vm_compute; reflexivity]. }
  split; [split; [no_pushes|left; discriminate]|]. repeat split; reflexivity.
Qed.
Print Assumptions C70_push_refuted.
