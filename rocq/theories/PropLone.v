(** C82: precomposed text passes unchanged; what counts as assigned (C26). *)
From Coq Require Import NArith List Bool.
From Verif Require Import Base Ucd Norm Chars TextUtils SpecText Utf8 Utf8Facts Input Output SpecRead SpecCat SpecWrite SpecAscii Strings StringProps WriteFacts SpecLone LoneProps.
Import ListNotations.
Local Open Scope N_scope.

(** ** C26 *)
(** The characters that are isolated are those that Unicode has neither assigned
    nor set aside for private use. *)
Theorem C26_assigned : forall c, is_assigned c = true <-> is_public_assigned c = true \/ private_use c.
Proof. exact assigned_spec. Qed.
Print Assumptions C26_assigned.
Example C26_assigned_example : private_use 0xF8FF /\ is_public_assigned 0xF8FF = false /\ is_assigned 0xF8FF = true /\ is_assigned 0xFFFFE = false /\ is_assigned 0x378 = false.
Proof. split; [left; split; discriminate|vm_compute; auto]. Qed.

(** ** C82 *)
(** Text of precomposed characters is valid and is converted to itself; *)
Theorem C82_from_text : forall check s, Forall lone s -> string_from_text check s = TOk s /\ string_ok s.
Proof. intros check s H. split; [now apply lone_from_text|now apply lone_ok]. Qed.
Print Assumptions C82_from_text.
(** a reader delivers it unchanged, whatever its options and however the stream is
    cut into reads, with pushes or failures, and adds the missing line end; *)
Theorem C82_read : forall nel lsps script text, gives nel lsps script text -> Forall lone (stream_text script) ->
  text = stream_text script ++ missing_line_end (stream_text script).
Proof. exact lone_read. Qed.
Print Assumptions C82_read.
(** a writer accepts it in any pieces, as text or as bytes, with flushes anywhere,
    and sends exactly it; closing succeeds exactly after a line end. *)
Theorem C82_written : forall cr p os, Forall lop_ok os -> scalars (flat_map lop_given os) ->
  exists w, do_ops (new_writer cr false (mksink p [] false)) (map lop_op os) = (map (fun _ => None) os, w) /\
    emitted (inner w) = p ++ as_sent cr (flat_map lop_given os) /\
    (fst (close w) = None <-> line_terminated (flat_map lop_given os)) /\ emitted (inner (snd (close w))) = emitted (inner w).
Proof. exact lone_written. Qed.
Print Assumptions C82_written.
(** Such are the letters of many scripts, ideographs, Hangul syllables and the
    characters for private use. *)
Theorem C82_scripts : forall c, in_ranges c scripts = true -> lone c.
Proof. exact scripts_lone. Qed.
Print Assumptions C82_scripts.
Theorem C82_private_use : forall c, private_use c -> lone c.
Proof.
  intros c H. apply scripts_lone. unfold in_ranges. apply existsb_exists. destruct H as [[H1 H2]|[[H1 H2]|[H1 H2]]].
  - exists (0xE000, 0xF8FF). split; [cbn; tauto|]. apply andb_true_intro. split; now apply N.leb_le.
  - exists (0xF0000, 0xFFFFD). split; [cbn; tauto|]. apply andb_true_intro. split; now apply N.leb_le.
  - exists (0x100000, 0x10FFFD). split; [cbn; tauto|]. apply andb_true_intro. split; now apply N.leb_le.
Qed.
Print Assumptions C82_private_use.

Lemma by_scripts : forall s, forallb (fun c => in_ranges c scripts) s = true -> Forall lone s.
Proof. intros s H. apply Forall_forall. rewrite forallb_forall in H. intros c HC. apply scripts_lone. now apply H. Qed.
(** an accented letter, an ideograph, a Hangul syllable, a pictograph, a
    character for private use; with a push and a failure inside *)
Example C82_example : Forall lone [0xE9; 0x6F22; 0xD55C; 0x1F600; 0xF8FF; 0xA] /\
  gives true true [Chunk [0xE9; 0x6F22] Push; Fail; Chunk [0xD55C; 0x1F600; 0xF8FF] Active] [0xE9; 0x6F22; 0xD55C; 0x1F600; 0xF8FF; 0xA] /\
  Forall lop_ok [LWrite [0xE9; 0x6F22]; LFlush; LBytes [0xD55C]; LText [0xF8FF; 0xA]] /\
  emitted (inner (snd (do_ops (new_writer false false (mksink [] [] false)) (map lop_op [LWrite [0xE9; 0x6F22]; LFlush; LBytes [0xD55C]; LText [0xF8FF; 0xA]])))) = [0xE9; 0x6F22; 0xD55C; 0xF8FF; 0xA].
Proof.
  split; [apply by_scripts; vm_compute; reflexivity|]. split; [|split].
  - exists [136; 136; 136; 136]%nat. do 3 eexists. split; [vm_compute; reflexivity|]. split; [eexists [_; _; _]; do 2 eexists; reflexivity|vm_compute; reflexivity].
  - constructor; [apply by_scripts; vm_compute; reflexivity|]. constructor; [exact I|]. constructor; [apply by_scripts; vm_compute; reflexivity|].
    constructor; [split; [discriminate|apply by_scripts; vm_compute; reflexivity]|constructor].
  - vm_compute. reflexivity.
Qed.
(** Characters that combine do not pass unchanged. *)
Example C82_combining_example : ~ lone 0x301 /\ ~ lone 0x1161 /\ string_from_text is_basic_text [0x65; 0x301] = TOk [0xE9].
Proof.
  split; [intro H; pose proof (l_starter _ H) as K; vm_compute in K; discriminate|]. split; [intro H; pose proof (l_yes _ H) as K; vm_compute in K; discriminate|vm_compute; reflexivity].
Qed.
