(** Reading all the text: C99. *)
From Coq Require Import NArith List Bool.
From Verif Require Import Base TextUtils SpecText TextFacts Utf8 Input SpecRead SpecString SpecCat StdAdapt StdRead SpecWhole WholeProps.
Import ListNotations.
Local Open Scope N_scope.

(** ** C99 *)
(** Whatever the stream does and whatever sizes it asks for, read_to_end returns. *)
Theorem C99_total : forall nel lsps script a b buf, exists k r t', forall fuel, (k <= fuel)%nat -> read_to_end fuel a b (new_reader nel lsps script) buf = Some (r, t').
Proof. exact to_end_total. Qed.
Print Assumptions C99_total.
(** It returns an error exactly when a read of the stream fails before its end. *)
Theorem C99_fails : forall nel lsps script a b fuel buf r t', read_to_end fuel a b (new_reader nel lsps script) buf = Some (r, t') -> (r = Broken <-> fails_early script).
Proof. exact to_end_fails. Qed.
Print Assumptions C99_fails.
(** Otherwise it appends the text that every session of reads up to the end delivers,
    whatever the sizes of its buffers, and returns its length; the text is Basic Text. *)
Theorem C99_whole : forall nel lsps script a b fuel buf n bs t', read_to_end fuel a b (new_reader nel lsps script) buf = Some (Whole n bs, t') ->
  exists text, gives nel lsps script text /\ (forall text', gives nel lsps script text' -> text' = text) /\ bs = buf ++ encode_all text /\ n = length (encode_all text) /\
  string_ok text /\ line_terminated text.
Proof. exact to_end_whole. Qed.
Print Assumptions C99_whole.
(** read_to_string writes into the bytes of a String: they stay UTF-8, of the string it
    was and the text. *)
Theorem C99_string : forall nel lsps script a b fuel s n bs t', scalars s -> scalar_stream script -> read_to_string fuel a b (new_reader nel lsps script) s = Some (Whole n bs, t') ->
  valid_utf8 bs = true /\ exists text, gives nel lsps script text /\ decode bs = (s ++ text, []) /\ n = str_len text.
Proof. exact to_string_whole. Qed.
Print Assumptions C99_string.
(** read_to_text_string on a TextReader never finds that a starter is missing.  The
    TextString stays valid unless two Hangul characters join. *)
Theorem C99_text_string_partial : forall nel lsps script a b fuel s r t', string_ok s -> scalars s -> scalar_stream script -> read_to_text fuel a b (new_reader nel lsps script) s = Some (r, t') ->
  (fails_early script /\ r = TBroken) \/
  (~ fails_early script /\ exists text, gives nel lsps script text /\ r = TWhole (str_len text) (encode_all (s ++ text)) /\ (string_ok (s ++ text) <-> ~ joined s text)).
Proof. exact to_text_whole. Qed.
Print Assumptions C99_text_string_partial.
(** The end of the example in lib.rs: into a new TextString, from a stream that does not
    fail, it succeeds and the string is valid. *)
Theorem C99_fresh : forall nel lsps script a b fuel r t', scalar_stream script -> no_fail script -> read_to_text fuel a b (new_reader nel lsps script) [] = Some (r, t') ->
  exists text, gives nel lsps script text /\ r = TWhole (str_len text) (encode_all text) /\ string_ok text.
Proof. exact to_text_fresh. Qed.
Print Assumptions C99_fresh.

(** A valid TextString becomes invalid. *)
Theorem C99_text_string_refuted : exists script s n bs t', string_ok s /\ scalars s /\ scalar_stream script /\
  read_to_text 9 0 0 (new_reader false false script) s = Some (TWhole n bs, t') /\ ~ string_ok (fst (decode bs)).
Proof.
  exists [Chunk [0x11A8] End], [0xAC00], 4%nat, (encode_all [0xAC00; 0x11A8; 0xA]). eexists.
  split; [apply basic_text_spec; vm_compute; reflexivity|]. split; [repeat constructor|]. split; [intros cs s [E|[]]; injection E as <- <-; repeat constructor|].
  split; [vm_compute; reflexivity|]. intro H. apply basic_text_spec in H. vm_compute in H. discriminate.
Qed.
Print Assumptions C99_text_string_refuted.
(** "e", 200 times "x" and U+2260 decomposed, a push, U+301, an unassigned character and
    no line end; 136 bytes at a time. *)
Definition ex99 : list event := [Chunk (0x65 :: repeat 0x78 200 ++ [0x3D; 0x338]) Push; Chunk [] Active; Chunk [0x301; 0x378] End; Fail].
Definition ex99_text : list N := 0x65 :: repeat 0x78 200 ++ [0x2260; 0x34F; 0x301; 0x34F; 0x378; 0x34F; 0xA].
Example C99_example : exists t', read_to_end 9 0 0 (new_reader false false ex99) [1; 2] = Some (Whole (str_len ex99_text) ([1; 2] ++ encode_all ex99_text), t') /\ ~ fails_early ex99.
Proof.
  eexists. split; [vm_compute; reflexivity|]. intros (a & b & E & F).
  destruct a as [|x a]; [discriminate|]. injection E as <- E. destruct a as [|x a]; [discriminate|]. injection E as <- E. destruct a as [|x a]; [discriminate|]. injection E as <- E.
  apply (F [0x301; 0x378]). right; right; now left.
Qed.
Example C99_example_fails : exists t', read_to_end 9 0 0 (new_reader false false [Chunk [0x61] Active; Fail; Chunk [0x62] End]) [1; 2] = Some (Broken, t').
Proof. eexists. vm_compute. reflexivity. Qed.
Example C99_example_string : exists t', scalars [0xE9] /\ scalar_stream [Chunk [0x65] Active; Chunk [0x301] End] /\
  read_to_string 9 200 300 (new_reader false false [Chunk [0x65] Active; Chunk [0x301] End]) [0xE9] = Some (Whole 3 (encode_all [0xE9; 0xE9; 0xA]), t').
Proof.
  eexists. split; [repeat constructor|]. split; [intros cs s H; destruct H as [H|[H|[]]]; injection H as <- <-; repeat constructor|]. vm_compute. reflexivity.
Qed.
Example C99_example_text : exists t', string_ok [0xE9] /\ read_to_text 9 0 0 (new_reader false false [Chunk [0x301; 0x61] End]) [0xE9] = Some (TWhole 6 (encode_all [0xE9; 0x34F; 0x301; 0x61; 0xA]), t').
Proof. eexists. split; [apply basic_text_spec; vm_compute; reflexivity|]. vm_compute. reflexivity. Qed.
Example C99_example_fresh : exists t', read_to_text 9 0 0 (new_reader false false [Chunk [0xC; 0x7; 0x61] End]) [] = Some (TWhole 6 (encode_all [0x20; 0xFFFD; 0x61; 0xA]), t').
Proof. eexists. vm_compute. reflexivity. Qed.
