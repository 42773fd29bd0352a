(** Universal newlines: C92. *)
From Coq Require Import NArith List Bool.
From Verif Require Import Base Chars TextUtils Input Strings SpecText SpecRead SpecEscape SpecConv SpecString IsoFacts ReadSession EscapeFacts EscapeCheck EscapeRun ReadProps LossyProps SpecCat CatProps SpecPush PushProps PropCat SpecNewlines NewlineProps.
Import ListNotations.
Local Open Scope N_scope.

(** ** C92 *)
(** Two streams with pushes anywhere, cut into reads in any way.  Between the
    pushes the second one has the text of the first one, with each line end
    written as U+A, U+D U+A or U+D, in any mixture.  Both deliver the same text. *)
Theorem C92_any_mixture_partial : forall nel lsps s1 s2 o1 o2, gives nel lsps s1 o1 -> gives nel lsps s2 o2 -> bom_visible s1 -> bom_visible s2 ->
  Forall2 same_lines (segments_read s1) (segments_read s2) -> Forall2 whole_ends (segments_read s1) (segments_read s2) ->
  settled_segments nel lsps (segments_read s1) -> o1 = o2.
Proof. exact newlines_same. Qed.
Print Assumptions C92_any_mixture_partial.
(** "a LF ESC ] LF BEL b FF LF LF ESC [ 1 LF c" and a mixture, with a cut inside a
    line end. *)
Definition ex92_1 : list event := [Chunk [0x61; 0xA; 0x1B; 0x5D; 0xA; 0x7; 0x62; 0xC; 0xA; 0xA; 0x1B; 0x5B; 0x31; 0xA; 0x63] End].
Definition ex92_2 : list event := [Chunk [0x61; 0xD] Active; Chunk [0xA; 0x1B; 0x5D; 0xD; 0x7; 0x62; 0xC; 0xD] Active; Chunk [0xD; 0xA; 0x1B; 0x5B; 0x31; 0xD; 0x63] End].
Lemma not_within : forall p s, (fix go (s : list N) : bool := negb (list_eqb p (firstn (length p) s)) && match s with [] => true | _ :: t => go t end) s = true -> ~ within p s.
Proof.
  intros p s H (a & b & ->). induction a as [|c a IH]; cbn [app] in H.
  - assert (E : firstn (length p) (p ++ b) = p) by (rewrite firstn_app, firstn_all, PeanoNat.Nat.sub_diag; apply app_nil_r).
    destruct (p ++ b); rewrite E, list_eqb_refl in H; discriminate.
  - apply andb_prop in H. apply IH, H.
Qed.
Example C92_example : gives false false ex92_1 [0x61; 0xA; 0x62; 0xA; 0xA; 0xA; 0x63; 0xA] /\ gives false false ex92_2 [0x61; 0xA; 0x62; 0xA; 0xA; 0xA; 0x63; 0xA] /\
  bom_visible ex92_1 /\ bom_visible ex92_2 /\ Forall2 same_lines (segments_read ex92_1) (segments_read ex92_2) /\ Forall2 whole_ends (segments_read ex92_1) (segments_read ex92_2) /\
  settled_segments false false (segments_read ex92_1).
Proof.
  split; [is_given [136%nat] (@nil (read_result * list N))|].
  split. { exists [136; 136; 136]%nat. do 3 eexists. split; [vm_compute; reflexivity|]. split; [eexists [_; _]; do 2 eexists; reflexivity|vm_compute; reflexivity]. }
  split; [left; discriminate|]. split; [left; discriminate|]. split.
  { cbn. constructor; [|constructor]. repeat first [apply sl_nil|apply sl_crlf|apply sl_lf|apply sl_cr; [|discriminate]|apply sl_char; [discriminate|discriminate|]]. }
  split. { constructor; [|constructor]. left. apply not_within. reflexivity. }
  assert (F : Forall2 (replaced true (char_rep false false)) (segments_read ex92_1) [[[0x61]; [0xA]; []; [0x62]; [0xA]; [0xA]; []; [0xA]; [0x63]]]).
  { constructor; [|constructor]. cbn. cut_char 0x61. cut_char 0xA.
    cut_step [0x1B; 0x5D; 0xA; 0x7]; [apply (row_osc_end _ _ [0x1B] [0xA] 0x7); [split; [discriminate|repeat constructor]|constructor; [repeat split; discriminate|constructor]|now left]|].
    cut_char 0x62. cut_step [0xC; 0xA]; [apply (row_ff_lf _ _ [0xC]); split; [discriminate|repeat constructor]|]. cut_char 0xA.
    cut_step [0x1B; 0x5B; 0x31]; [apply (row_csi _ _ [0x1B] [0x31]); [split; [discriminate|repeat constructor]|constructor; [split; discriminate|constructor]]|].
    cut_char 0xA. cut_char 0x63. constructor. }
  apply (plain_settled_segments _ _ _ _ F). apply Forall_forall. rewrite <- forallb_forall. vm_compute. reflexivity.
Qed.
(** A text with the line ends U+D only, and one with U+D U+A only; the first needs
    no condition on "ESC [ [". *)
Theorem C92_cr_only : forall nel lsps s1 s2 o1 o2, gives nel lsps s1 o1 -> gives nel lsps s2 o2 -> bom_visible s1 -> bom_visible s2 ->
  Forall (fun s => ~ In 0xD s) (segments_read s1) -> segments_read s2 = map mac (segments_read s1) -> settled_segments nel lsps (segments_read s1) -> o1 = o2.
Proof. exact newlines_mac. Qed.
Print Assumptions C92_cr_only.
Theorem C92_crlf_only_partial : forall nel lsps s1 s2 o1 o2, gives nel lsps s1 o1 -> gives nel lsps s2 o2 -> bom_visible s1 -> bom_visible s2 ->
  Forall (fun s => ~ In 0xD s /\ ~ within cut_line_end s) (segments_read s1) -> segments_read s2 = map dos (segments_read s1) -> settled_segments nel lsps (segments_read s1) -> o1 = o2.
Proof. exact newlines_dos. Qed.
Print Assumptions C92_crlf_only_partial.
Example C92_example_conventions : mac [0x61; 0xA; 0xA; 0x62] = [0x61; 0xD; 0xD; 0x62] /\ dos [0x61; 0xA; 0xA; 0x62] = [0x61; 0xD; 0xA; 0xD; 0xA; 0x62] /\
  gives true true [Chunk [0x61; 0xA; 0xA; 0x62] End] [0x61; 0xA; 0xA; 0x62; 0xA] /\ gives true true [Chunk [0x61; 0xD; 0xD; 0x62] End] [0x61; 0xA; 0xA; 0x62; 0xA] /\
  gives true true [Chunk [0x61; 0xD; 0xA; 0xD; 0xA; 0x62] End] [0x61; 0xA; 0xA; 0x62; 0xA].
Proof.
  split; [reflexivity|]. split; [reflexivity|]. split; [is_given [136%nat] (@nil (read_result * list N))|]. split; [is_given [136%nat] (@nil (read_result * list N))|is_given [136%nat] (@nil (read_result * list N))].
Qed.
(** from_text_lossy gives the same string. *)
Theorem C92_lossy_partial : forall s t r r', lossy s r -> lossy t r' -> same_lines s t -> whole_ends (without_bom s) (without_bom t) ->
  settled false false (without_bom s) -> r = r'.
Proof. exact lossy_same. Qed.
Print Assumptions C92_lossy_partial.
Example C92_example_lossy : lossy [0x61; 0xA; 0x62; 0xA] (Some [0x61; 0xA; 0x62; 0xA]) /\ lossy [0x61; 0xD; 0xA; 0x62; 0xD] (Some [0x61; 0xA; 0x62; 0xA]) /\
  same_lines [0x61; 0xA; 0x62; 0xA] [0x61; 0xD; 0xA; 0x62; 0xD] /\ whole_ends (without_bom [0x61; 0xA; 0x62; 0xA]) (without_bom [0x61; 0xD; 0xA; 0x62; 0xD]) /\
  settled false false (without_bom [0x61; 0xA; 0x62; 0xA]).
Proof.
  assert (L : forall v r, (forall t, v <> 0xFEFF :: t) -> (let '(rs, _, _) := reads (new_input false false) [Chunk v End] [136%nat] in lossy_result v (received rs)) = r ->
    (exists n cs, fst (fst (reads (new_input false false) [Chunk v End] [136%nat])) = [(ROk n End, cs)]) -> lossy v r).
  { intros v r NB E (n & cs & R). destruct (reads (new_input false false) [Chunk v End] [136%nat]) as [[rs j] rest] eqn:ER. exists (received rs). split; [|now symmetry].
    exists [Chunk v End], [136%nat], rs, j, rest. cbn in R. subst rs. split; [reflexivity|]. split; [intros c [K|[]]; discriminate|]. split; [intros [K|[]]; discriminate|].
    split; [left; exact NB|]. split; [exact ER|]. split; [exists [], n, cs; reflexivity|reflexivity]. }
  split; [apply L; [discriminate|vm_compute; reflexivity|do 2 eexists; vm_compute; reflexivity]|].
  split; [apply L; [discriminate|vm_compute; reflexivity|do 2 eexists; vm_compute; reflexivity]|].
  split; [repeat first [apply sl_nil|apply sl_crlf|apply sl_lf|apply sl_cr; [|discriminate]|apply sl_char; [discriminate|discriminate|]]|].
  split; [left; apply not_within; reflexivity|]. apply plain_settled. intro H. vm_compute in H. repeat (destruct H as [H|H]; [discriminate H|]). exact H.
Qed.
(** The condition on "ESC [ [" is needed: the sequence takes the U+A, but only the
    U+D of U+D U+A. *)
Theorem C92_refuted : exists s1 s2 o1 o2, gives false false s1 o1 /\ gives false false s2 o2 /\ regular s1 /\ regular s2 /\
  same_lines (stream_text s1) (stream_text s2) /\ settled false false (stream_text s1) /\ o1 = [0x61; 0x62; 0xA] /\ o2 = [0x61; 0xA; 0x62; 0xA].
Proof.
  exists [Chunk [0x61; 0x1B; 0x5B; 0x5B; 0xA; 0x62; 0xA] End], [Chunk [0x61; 0x1B; 0x5B; 0x5B; 0xD; 0xA; 0x62; 0xA] End]. do 2 eexists.
  split; [is_given [136%nat] (@nil (read_result * list N))|]. split; [is_given [136%nat] (@nil (read_result * list N))|].
  split; [split; [no_pushes|left; discriminate]|]. split; [split; [no_pushes|left; discriminate]|].
  split; [cbn; repeat first [apply sl_nil|apply sl_crlf|apply sl_lf|apply sl_cr; [|discriminate]|apply sl_char; [discriminate|discriminate|]]|].
  split; [|split; reflexivity]. apply plain_settled. intro H. vm_compute in H. repeat (destruct H as [H|H]; [discriminate H|]). exact H.
Qed.
Print Assumptions C92_refuted.
(** A push between U+D and U+A makes two line ends of them. *)
Theorem C92_pushed_refuted : exists s1 s2 o1 o2, gives false false s1 o1 /\ gives false false s2 o2 /\ stream_text s1 = stream_text s2 /\ no_push s1 /\ bom_visible s1 /\ bom_visible s2 /\
  stream_text s1 = [0x61; 0xD; 0xA] /\ o1 = [0x61; 0xA] /\ o2 = [0x61; 0xA; 0xA].
Proof.
  exists [Chunk [0x61; 0xD; 0xA] End], [Chunk [0x61; 0xD] Push; Chunk [0xA] End]. do 2 eexists.
  split; [is_given [136%nat] (@nil (read_result * list N))|].
  split. { exists [136; 136]%nat. do 3 eexists. split; [vm_compute; reflexivity|]. split; [eexists [_]; do 2 eexists; reflexivity|vm_compute; reflexivity]. }
  split; [reflexivity|]. split; [no_pushes|]. split; [left; discriminate|]. split; [left; discriminate|]. repeat split; reflexivity.
Qed.
Print Assumptions C92_pushed_refuted.
