(** C93: no excluded character occurs in the bytes of a text; texts are POSIX text files. *)
From Coq Require Import NArith Arith List Bool Lia.
From Verif Require Import Base Ucd Norm Chars TextUtils SpecText TextFacts Utf8 Utf8Facts Input Output SpecWrite WriteProps SpecRead SpecNewlines SpecBytes ByteProps.
Import ListNotations.
Local Open Scope N_scope.

(** The control codes but tab and line feed, the line and paragraph separators, the
    explicit directional formatting characters, the noncharacters, the annotation
    characters and the byte order mark are not allowed in texts. *)
Theorem C93_excluded : forall c, not_text c -> ~ allowed c.
Proof. exact not_text_excluded. Qed.
Print Assumptions C93_excluded.
Example C93_example_excluded : not_text 0x1B /\ not_text 0x202E /\ not_text 0x1FFFE /\ not_text 0xFEFF /\ ~ not_text 0x9 /\ ~ not_text 0x200F /\ allowed 0x9 /\ allowed 0x200F.
Proof.
  split; [left; left; lia|]. split; [right; right; left; left; lia|]. split; [right; right; right; left; right; split; [lia|vm_compute; discriminate]|].
  split; [right; right; right; right; right; reflexivity|].
  assert (A : allowed 0x9 /\ allowed 0x200F) by (split; vm_compute; reflexivity).
  split; [intro H; exact (not_text_excluded _ H (proj1 A))|]. split; [intro H; exact (not_text_excluded _ H (proj2 A))|exact A].
Qed.

(** Nothing in the bytes of a text, at any offset, reads as the bytes of a character
    that is not allowed: texts need no decoding to be searched for them. *)
Theorem C93_text_bytes : forall s, scalars s -> Forall allowed s -> forall c, is_scalar c = true -> ~ allowed c -> ~ within (encode c) (encode_all s).
Proof. exact (fun s S A c C N => bytes_allowed s c S A C N). Qed.
Print Assumptions C93_text_bytes.
Theorem C93_text_controls : forall s, scalars s -> Forall allowed s -> forall b, In b (encode_all s) -> b < 0x20 \/ b = 0x7F -> b = 0x9 \/ b = 0xA.
Proof. exact plain_bytes. Qed.
Print Assumptions C93_text_controls.
Example C93_example_text : scalars [0x61; 0x9; 0xE9; 0xA] /\ Forall allowed [0x61; 0x9; 0xE9; 0xA] /\ encode_all [0x61; 0x9; 0xE9; 0xA] = [0x61; 0x9; 0xC3; 0xA9; 0xA].
Proof.
  split; [repeat constructor|]. split; [|reflexivity]. apply Forall_allowed_clean, Forall_forall. rewrite <- forallb_forall. vm_compute. reflexivity.
Qed.

(** The bytes that reads deliver, for any stream and any reads. *)
Theorem C93_read_bytes : forall nel lsps script sizes rs j rest, scalar_stream script -> reads (new_input nel lsps) script sizes = (rs, j, rest) ->
  forall c, is_scalar c = true -> ~ allowed c -> ~ within (encode c) (encode_all (delivered rs)).
Proof. exact read_bytes. Qed.
Print Assumptions C93_read_bytes.
(** At the end of the stream they are a POSIX text file, whose lines are the lines of the text. *)
Theorem C93_read_text_file : forall nel lsps script sizes rs j rest, scalar_stream script -> reads (new_input nel lsps) script sizes = (rs, j, rest) -> reached_end rs ->
  exists ls, delivered rs = concat (map (fun l => l ++ [0xA]) ls) /\ text_file (map encode_all ls) (encode_all (delivered rs)).
Proof. exact read_text_file. Qed.
Print Assumptions C93_read_text_file.
(** "a NUL U+202E é LF ESC [ 1 m b" *)
Definition ex93 : list event := [Chunk [0x61; 0; 0x202E; 0xE9; 0xA] Active; Chunk [0x1B; 0x5B; 0x31; 0x6D; 0x62] End].
Example C93_example_read : scalar_stream ex93 /\ exists rs j rest, reads (new_input false false) ex93 [136; 136]%nat = (rs, j, rest) /\ reached_end rs /\
  delivered rs = [0x61; 0xFFFD; 0xFFFD; 0xE9; 0xA; 0x62; 0xA] /\ encode_all (delivered rs) = [0x61; 0xEF; 0xBF; 0xBD; 0xEF; 0xBF; 0xBD; 0xC3; 0xA9; 0xA; 0x62; 0xA].
Proof.
  split; [intros cs s I; cbn in I; destruct I as [I|[I|[]]]; injection I as <- <-; repeat constructor|].
  do 3 eexists. split; [vm_compute; reflexivity|]. split; [eexists [_]; do 2 eexists; reflexivity|]. split; vm_compute; reflexivity.
Qed.

(** The bytes a writer has sent, at any time and whatever failed; CR only of CR LF. *)
Theorem C93_written_bytes : forall cr o ops rs w, do_ops (new_writer cr false (mksink [] o false)) ops = (rs, w) -> Forall plain_op ops -> Forall op_scalars ops ->
  forall c, is_scalar c = true -> ~ allowed c -> within (encode c) (encode_all (emitted (inner w))) -> cr = true /\ c = 0xD.
Proof. exact written_bytes. Qed.
Print Assumptions C93_written_bytes.
Theorem C93_written_text_file : forall o ops rs w w', do_ops (new_writer false false (mksink [] o false)) ops = (rs, w) -> Forall plain_op ops -> Forall op_scalars ops ->
  close w = (None, w') -> exists ls, emitted (inner w') = concat (map (fun l => l ++ [0xA]) ls) /\ text_file (map encode_all ls) (encode_all (emitted (inner w'))).
Proof. exact written_text_file. Qed.
Print Assumptions C93_written_text_file.
Example C93_example_written : exists rs w, do_ops (new_writer false false (mksink [] [] false)) [OpWriteStr [0x65; 0x301; 0xA]; OpWrite [0x62; 0xA]] = (rs, w) /\
  Forall plain_op [OpWriteStr [0x65; 0x301; 0xA]; OpWrite [0x62; 0xA]] /\ Forall op_scalars [OpWriteStr [0x65; 0x301; 0xA]; OpWrite [0x62; 0xA]] /\
  fst (close w) = None /\ encode_all (emitted (inner (snd (close w)))) = [0xC3; 0xA9; 0xA; 0x62; 0xA] /\ text_file [[0xC3; 0xA9]; [0x62]] [0xC3; 0xA9; 0xA; 0x62; 0xA].
Proof.
  do 2 eexists. split; [vm_compute; reflexivity|]. split; [constructor; [exact I|constructor; [exact I|constructor]]|].
  split; [constructor; [repeat constructor|constructor; [exact I|constructor]]|]. split; [vm_compute; reflexivity|]. split; [vm_compute; reflexivity|].
  split; [reflexivity|]. constructor; [|constructor; [|constructor]]; split; cbn; intuition discriminate.
Qed.
