(** What a reader holds back, and what a failed read does to the buffer: C08,
    C10, C42, C76. *)
From Coq Require Import NArith List Bool.
From Verif Require Import Base Chars TextUtils Utf8 Input SpecText SpecRead SpecEscape SpecConv ReadFacts ReadProps SpecCat SpecPush SpecPrompt PromptProps LineEnd PropCat.
Import ListNotations.
Local Open Scope N_scope.

(** ** C76 *)
(** When a call leaves at least four bytes of its buffer unused, every line that
    was read from the stream has been delivered: what is held back would be the
    last line, were the stream to end. *)
Theorem C76_lines_prompt : forall nel lsps used rest sizes rs j held, holds nel lsps used rest sizes rs j held -> left_room sizes rs ->
  held = [] \/ exists line, held = line ++ [0xA] /\ ~ In 0xA line.
Proof. exact lines_prompt. Qed.
Print Assumptions C76_lines_prompt.
Ltac holds_tac k := split; [vm_compute; reflexivity|exists (repeat 136%nat k); do 3 eexists; split; [vm_compute; reflexivity|]].
(** "a CR LF b" with a combining acute; "b" is held back *)
Definition ex76 : list event := [Chunk [0x61; 0xD] Active; Fail; Chunk [0xA; 0x62; 0x301] Active].
Definition ex76_rs := fst (fst (reads (new_input false false) (ex76 ++ [Chunk [0x63; 0xA] Active]) [136; 136; 136]%nat)).
Definition ex76_j := snd (fst (reads (new_input false false) (ex76 ++ [Chunk [0x63; 0xA] Active]) [136; 136; 136]%nat)).
Example C76_example : holds false false ex76 [Chunk [0x63; 0xA] Active] [136; 136; 136]%nat ex76_rs ex76_j [0x62; 0x301; 0xA] /\
  left_room [136; 136; 136]%nat ex76_rs /\ delivered ex76_rs = [0x61; 0xA].
Proof.
  split; [|split].
  - holds_tac 4%nat. split; [eexists [_; _; _]; do 2 eexists; reflexivity|vm_compute; reflexivity].
  - exists [136; 136]%nat, 136%nat, [(ROk 0 Active, []); (RErr, [])], 2%nat, Active, [0x61; 0xA]. split; [reflexivity|]. split; [vm_compute; reflexivity|repeat constructor].
  - vm_compute. reflexivity.
Qed.
(** And if the last character read is a line feed, nothing is held back, unless the text
    has escapes (of which some swallow the line feed). *)
Theorem C76_line_ended : forall nel lsps used rest sizes rs j held, holds nel lsps used rest sizes rs j held -> left_room sizes rs ->
  ~ In 0x1B (stream_text used) -> last_opt (stream_text used) = Some 0xA -> held = [].
Proof. exact line_ended. Qed.
Print Assumptions C76_line_ended.
Example C76_example_ended : exists rs j, holds false false [Chunk [0x61; 0xD] Active; Fail; Chunk [0xA; 0x62; 0x301; 0xA] Active] [Chunk [0x63] Active] [136; 136; 136]%nat rs j [] /\
  left_room [136; 136; 136]%nat rs /\ delivered rs = [0x61; 0xA; 0x62; 0x301; 0xA].
Proof.
  exists [(ROk 0 Active, []); (RErr, []); (ROk 6 Active, [0x61; 0xA; 0x62; 0x301; 0xA])]. eexists. split; [|split].
  - holds_tac 4%nat. split; [eexists [_; _; _]; do 2 eexists; reflexivity|vm_compute; reflexivity].
  - exists [136; 136]%nat, 136%nat, [(ROk 0 Active, []); (RErr, [])], 6%nat, Active, [0x61; 0xA; 0x62; 0x301; 0xA]. split; [reflexivity|]. split; [reflexivity|repeat constructor].
  - reflexivity.
Qed.
(** The escape is needed: an unfinished operating system command swallows the line feed. *)
Example C76_example_escape_needed : exists rs j held, holds false false [Chunk [0x61; 0x1B; 0x5D; 0xA] Active] [Chunk [0x63] Active] [136]%nat rs j held /\
  left_room [136]%nat rs /\ last_opt (stream_text [Chunk [0x61; 0x1B; 0x5D; 0xA] Active]) = Some 0xA /\ held <> [].
Proof.
  exists [(ROk 0 Active, [])]. eexists. exists [0x61; 0xA]. split; [|split; [|split; [reflexivity|discriminate]]].
  - holds_tac 4%nat. split; [eexists [_; _; _]; do 2 eexists; reflexivity|vm_compute; reflexivity].
  - exists [], 136%nat, [], 0%nat, Active, []. split; [reflexivity|]. split; [reflexivity|repeat constructor].
Qed.

(** Without pushes and escapes, while the stream goes on: nothing is held back exactly if
    the last character read ends a line, as the options say. *)
Theorem C76_line_ended_exact : forall nel lsps used rest sizes rs j held, holds nel lsps used rest sizes rs j held -> left_room sizes rs -> rest <> [] ->
  no_push used -> ~ In 0x1B (stream_text used) -> last_opt (stream_text used) <> Some 0xFEFF ->
  held = [] <-> stream_text used = [] \/ exists c, last_opt (stream_text used) = Some c /\ (c = 0xA \/ (nel = true /\ c = 0x85) \/ (lsps = true /\ (c = 0x2028 \/ c = 0x2029))).
Proof. exact line_ended_exact. Qed.
Print Assumptions C76_line_ended_exact.
(** U+85 ends the line with the option only *)
Example C76_example_ended_exact :
  (exists rs j, holds true false [Chunk [0x61; 0x85] Active] [Chunk [0x63] Active] [136]%nat rs j [] /\ left_room [136]%nat rs) /\
  (exists rs j, holds false false [Chunk [0x61; 0x85] Active] [Chunk [0x63] Active] [136]%nat rs j [0x61; 0x20; 0xA] /\ left_room [136]%nat rs).
Proof.
  split.
  - exists [(ROk 2 Active, [0x61; 0xA])]. eexists. split; [holds_tac 3%nat; split; [eexists [_; _]; do 2 eexists; reflexivity|vm_compute; reflexivity]|]. exists [], 136%nat, [], 2%nat, Active, [0x61; 0xA]. split; [reflexivity|]. split; [reflexivity|repeat constructor].
  - exists [(ROk 0 Active, [])]. eexists. split; [holds_tac 3%nat; split; [eexists [_; _]; do 2 eexists; reflexivity|vm_compute; reflexivity]|]. exists [], 136%nat, [], 0%nat, Active, []. split; [reflexivity|]. split; [reflexivity|repeat constructor].
Qed.

(** With pushes and escapes too: if the text is cut into sequences as the documentation
    says, nothing is held back exactly if the last of them is a line end.  (A carriage return
    at the end waits for the next character.) *)
Theorem C76_line_ended_sequences : forall nel lsps used rest sizes rs j held rss, holds nel lsps used rest sizes rs j held -> left_room sizes rs -> rest <> [] ->
  bom_visible used -> Forall2 (replaced true (char_rep nel lsps)) (segments_read used) rss -> last_opt (stream_text used) <> Some 0xD ->
  held = [] <-> final_newline (concat rss) = [].
Proof. exact line_ended_sequences. Qed.
Print Assumptions C76_line_ended_sequences.
Example C76_example_sequences : exists rs j rss, let used := [Chunk [0x61; 0xD] Active; Chunk [0xA] Active; Chunk [] Push] in
  holds false false used [Chunk [0x63] Active] [136; 136; 136]%nat rs j [] /\ left_room [136; 136; 136]%nat rs /\ bom_visible used /\
  Forall2 (replaced true (char_rep false false)) (segments_read used) rss /\ rss = [[[0x61]; [0xA]]; []].
Proof.
  exists [(ROk 0 Active, []); (ROk 2 Active, [0x61; 0xA]); (ROk 0 Push, [])]. eexists. exists [[[0x61]; [0xA]]; []]. cbv zeta. split; [|split; [|split; [|split; [|reflexivity]]]].
  - holds_tac 4%nat. split; [eexists [_; _; _]; do 2 eexists; reflexivity|vm_compute; reflexivity].
  - exists [136; 136]%nat, 136%nat, [(ROk 0 Active, []); (ROk 2 Active, [0x61; 0xA])], 0%nat, Push, []. split; [reflexivity|]. split; [reflexivity|repeat constructor].
  - right. do 4 eexists. reflexivity.
  - constructor; [|constructor; constructor].
    change (without_bom _) with [0x61; 0xD; 0xA]. cut_char 0x61. cut_step [0xD; 0xA]; [constructor|constructor].
Qed.
(** A carriage return at the end: its line is held back. *)
Example C76_example_cr : exists rs j, holds false false [Chunk [0x61; 0xD] Active] [Chunk [0x63] Active] [136]%nat rs j [0x61; 0xA] /\ left_room [136]%nat rs.
Proof.
  exists [(ROk 0 Active, [])]. eexists. split; [holds_tac 3%nat; split; [eexists [_; _]; do 2 eexists; reflexivity|vm_compute; reflexivity]|]. exists [], 136%nat, [], 0%nat, Active, []. split; [reflexivity|]. split; [reflexivity|repeat constructor].
Qed.

(** ** C42 *)
(** Exactly when abandon panics, after a call that left room: if more than the
    final line end is held back. *)
Theorem C42_abandon_exact : forall nel lsps used rest sizes rs j held, holds nel lsps used rest sizes rs j held -> left_room sizes rs ->
  last_opt (stream_text used) <> Some 0xC -> abandon_input j = None <-> held <> [] /\ held <> [0xA].
Proof. exact abandon_exact. Qed.
Print Assumptions C42_abandon_exact.
Example C42_exact_example : abandon_input ex76_j = None /\ last_opt (stream_text ex76) <> Some 0xC /\
  exists rs j, holds false false [Chunk [0x61; 0xA; 0x1B] Active] [Chunk [0x63] Active] [136]%nat rs j [0xA] /\ left_room [136]%nat rs /\ abandon_input j <> None.
Proof.
  split; [vm_compute; reflexivity|]. split; [vm_compute; discriminate|].
  exists [(ROk 2 Active, [0x61; 0xA])]. eexists. split; [|split].
  - holds_tac 3%nat. split; [eexists [_; _]; do 2 eexists; reflexivity|vm_compute; reflexivity].
  - exists [], 136%nat, [], 2%nat, Active, [0x61; 0xA]. split; [reflexivity|]. split; [reflexivity|repeat constructor].
  - vm_compute. discriminate.
Qed.

(** ** C10 *)
(** Exactly when a push is reported: if the call in which it arrives leaves at
    least four bytes of its buffer unused.  (By C10_push_genuine it is not
    reported by a later call.) *)
Theorem C10_push_reported_exact : forall i cs t blen n s out j,
  read i (Chunk cs Push :: t) blen = (ROk n s, out, j, t) -> s = Push <-> (n + 4 <= blen)%nat.
Proof. exact push_reported_iff. Qed.
Print Assumptions C10_push_reported_exact.
Example C10_reported_exact_example :
  (exists j, read (new_input false false) [Chunk (repeat 0x61 131 ++ [0xA]) Push; Chunk [0x62] Active] 136 = (ROk 132 Push, repeat 0x61 131 ++ [0xA], j, [Chunk [0x62] Active])) /\
  (exists j, read (new_input false false) [Chunk (repeat 0x61 132 ++ [0xA]) Push; Chunk [0x62] Active] 136 = (ROk 133 Active, repeat 0x61 132 ++ [0xA], j, [Chunk [0x62] Active])).
Proof. split; eexists; vm_compute; reflexivity. Qed.
(** Exactly when all the text before a reported push has been delivered: if the
    last sequence before it is a line end. *)
Theorem C10_push_complete_exact : forall nel lsps used rest sizes rs j held rss, holds nel lsps used rest sizes rs j held -> pushed_last rs ->
  bom_visible used -> Forall2 (replaced true (char_rep nel lsps)) (segments_read used) rss ->
  held = [] <-> final_newline (concat rss) = [].
Proof. exact push_complete. Qed.
Print Assumptions C10_push_complete_exact.
Example C10_complete_exact_example : exists rs j rss, let used := [Chunk [0x61; 0xD] Active; Chunk [0xA] Push] in
  holds false false used [Chunk [0x63] Active] [136; 136]%nat rs j [] /\ pushed_last rs /\ bom_visible used /\
  Forall2 (replaced true (char_rep false false)) (segments_read used) rss /\ rss = [[[0x61]; [0xA]]; []].
Proof.
  exists [(ROk 0 Active, []); (ROk 2 Push, [0x61; 0xA])]. eexists. exists [[[0x61]; [0xA]]; []]. cbv zeta. split; [|split; [|split; [|split; [|reflexivity]]]].
  - holds_tac 3%nat. split; [eexists [_; _]; do 2 eexists; reflexivity|vm_compute; reflexivity].
  - exists [(ROk 0 Active, [])], 2%nat, [0x61; 0xA]. reflexivity.
  - right. do 4 eexists. reflexivity.
  - constructor; [|constructor; constructor].
    change (without_bom _) with [0x61; 0xD; 0xA]. cut_char 0x61. cut_step [0xD; 0xA]; [constructor|constructor].
Qed.

(** ** C08 *)
(** Exactly when a failed read leaves valid UTF-8: if what it wrote ends at the
    end of a character of what was in the buffer. *)
Theorem C08_failed_read_buffer_exact : forall nel lsps script sizes rs i script1 s cs j script2, scalar_stream script -> scalars s ->
  reads (new_input nel lsps) script sizes = (rs, i, script1) -> read i script1 (length (encode_all s)) = (RErr, cs, j, script2) ->
  valid_utf8 (buffer_after RErr cs (encode_all s)) = true <-> whole_chars s (length (encode_all cs)).
Proof. exact failed_buffer. Qed.
Print Assumptions C08_failed_read_buffer_exact.
Example C08_buffer_exact_example : exists rs i script1 cs j script2,
  reads (new_input false false) [Chunk (repeat 0x61 139 ++ [0xA]) Active; Fail] [136%nat] = (rs, i, script1) /\
  read i script1 (length (encode_all (repeat 0x61 150))) = (RErr, cs, j, script2) /\ length (encode_all cs) = 7%nat /\
  whole_chars (repeat 0x61 150) 7 /\ ~ whole_chars (repeat 0xE9 70) 7.
Proof.
  do 6 eexists. split; [vm_compute; reflexivity|]. split; [vm_compute; reflexivity|]. split; [vm_compute; reflexivity|]. split.
  - exists (repeat 0x61 7), (repeat 0x61 143). split; vm_compute; reflexivity.
  - intros (a & b & E & L). assert (K : forall k, length (encode_all (firstn k (repeat 0xE9 70))) <> 7%nat).
    { intro k. do 71 (destruct k as [|k]; [vm_compute; discriminate|]). rewrite firstn_all2; [vm_compute; discriminate|]. change (length (repeat 0xE9 70)) with 70%nat. do 70 apply le_n_S. apply le_0_n. }
    apply (K (length a)). rewrite E, firstn_app, firstn_all, PeanoNat.Nat.sub_diag. cbn [firstn]. now rewrite app_nil_r.
Qed.
(** Exactly when no text is lost: if no failed call wrote anything. *)
Theorem C08_text_lost_exact : forall nel lsps script sizes rs j rest t, reads (new_input nel lsps) script sizes = (rs, j, rest) -> reached_end rs ->
  gives nel lsps (filter (fun e => match e with Fail => false | _ => true end) script) t ->
  received rs = t <-> forall cs, In (RErr, cs) rs -> cs = [].
Proof. exact lost_exact. Qed.
Print Assumptions C08_text_lost_exact.
Example C08_lost_exact_example : exists rs j rest, reads (new_input false false) [Chunk [0x61; 0xA] Active; Fail; Chunk [0x62] End] [136; 136; 136]%nat = (rs, j, rest) /\ reached_end rs /\
  gives false false [Chunk [0x61; 0xA] Active; Chunk [0x62] End] [0x61; 0xA; 0x62; 0xA] /\ In (RErr, []) rs.
Proof.
  do 3 eexists. split; [vm_compute; reflexivity|]. split; [eexists [_; _]; do 2 eexists; reflexivity|]. split; [|right; left; reflexivity].
  exists [136; 136]%nat. do 3 eexists. split; [vm_compute; reflexivity|]. split; [eexists [_]; do 2 eexists; reflexivity|vm_compute; reflexivity].
Qed.
