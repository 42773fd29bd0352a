(** C103: a conversation between two duplexers. *)
From Coq Require Import NArith Arith List Bool Lia.
From Verif Require Import Base Chars TextUtils SpecText TextFacts SpecEscape Input Output SpecRead SpecWrite WriteProps Strings Utf8 SpecColour SpecFrag Duplex SpecDuplex SpecDuplexColour DuplexProps SpecPrompt Talk SpecTalk TalkProps TalkHeard TalkLive TalkPush TalkColour.
Import ListNotations.
Local Open Scope N_scope.

(** Each end behaves as a duplexer by itself on a stream that gives what the other end
    has sent, as far as it has arrived. *)
Theorem C103_sides : forall nel lsps cr an o os rs e w, talk (at_start nel lsps cr an o true) (at_start nel lsps cr an o false) os = (rs, e) ->
  exists sc, stream_text sc = firstn (taken (end_of w e)) (emitted (inner (dout (here (end_of (negb w) e))))) /\ (calm_line w os -> no_fail sc /\ no_push sc) /\
  forall more, exists x, do_dops (new_duplexer (nel w) (lsps w) (cr w) (an w) (mksink [] (o w) false) (sc ++ more)) (ops_at w os) = (results_at w rs, x) /\
    din x = din (here (end_of w e)) /\ dout x = dout (here (end_of w e)).
Proof. exact talk_sides. Qed.
Print Assumptions C103_sides.

(** What an end hears is the beginning of what the other end has written. *)
Theorem C103_heard : forall nel lsps cr an o os rs e w, talk (at_start nel lsps cr an o true) (at_start nel lsps cr an o false) os = (rs, e) ->
  Forall (fun x => x <> DOut OpAbandon) (ops_at w os) -> calm_line w os -> closes_last (negb w) os ->
  an (negb w) = false -> Forall plain_dop (ops_at (negb w) os) -> all_written (negb w) rs ->
  let sent := written (ops_at (negb w) os) in string_ok sent -> Forall (fun c => is_assigned c = true) sent ->
  (exists more, ended_text sent = heard w rs ++ more) /\ (reached_end (read_results (results_at w rs)) -> heard w rs = ended_text sent).
Proof. exact talk_heard. Qed.
Print Assumptions C103_heard.

(** Once all has arrived, a read that leaves room in its buffer has delivered every
    complete line. *)
Theorem C103_prompt : forall nel lsps cr an o os rs e w, talk (at_start nel lsps cr an o true) (at_start nel lsps cr an o false) os = (rs, e) ->
  Forall (fun x => x <> DOut OpAbandon) (ops_at w os) -> calm_line w os -> all_arrived w e -> left_room (read_sizes (ops_at w os)) (read_results (results_at w rs)) ->
  an (negb w) = false -> Forall plain_dop (ops_at (negb w) os) -> all_written (negb w) rs ->
  let sent := written (ops_at (negb w) os) in string_ok sent -> Forall (fun c => is_assigned c = true) sent ->
  (line_terminated sent -> heard w rs = sent) /\ (forall l u, sent = l ++ [0xA] ++ u -> exists v, heard w rs = l ++ [0xA] ++ v).
Proof. exact talk_prompt. Qed.
Print Assumptions C103_prompt.

(** The end of the stream is read only after the other end has closed, and after all it
    has sent. *)
Theorem C103_end : forall nel lsps cr an o os rs e w, talk (at_start nel lsps cr an o true) (at_start nel lsps cr an o false) os = (rs, e) ->
  Forall (fun x => x <> DOut OpAbandon) (ops_at w os) -> closes_last (negb w) os -> reached_end (read_results (results_at w rs)) -> has_closed (negb w) os rs /\ all_arrived w e.
Proof. exact talk_end. Qed.
Print Assumptions C103_end.

(** Two ends that write whole lines hear each other exactly. *)
Theorem C103_lines : forall nel lsps cr an o os rs e w, talk (at_start nel lsps cr an o true) (at_start nel lsps cr an o false) os = (rs, e) ->
  Forall (fun x => x <> DOut OpAbandon) (ops_at w os) -> calm_line w os -> closes_last (negb w) os ->
  an (negb w) = false -> o (negb w) = [] -> Forall plain_dop (ops_at (negb w) os) -> Forall line_op (outs (ops_at (negb w) os)) -> all_written (negb w) rs ->
  let sent := written (ops_at (negb w) os) in Forall (fun c => is_assigned c = true) sent ->
  (exists more, sent = heard w rs ++ more) /\ (reached_end (read_results (results_at w rs)) -> heard w rs = sent) /\
  (all_arrived w e -> left_room (read_sizes (ops_at w os)) (read_results (results_at w rs)) -> heard w rs = sent).
Proof. exact talk_lines. Qed.
Print Assumptions C103_lines.

(** After any conversation, enough reads hear all that was written. *)
Theorem C103_delivered : forall nel lsps cr an o os rs e w b m k, talk (at_start nel lsps cr an o true) (at_start nel lsps cr an o false) os = (rs, e) ->
  Forall (fun x => x <> DOut OpAbandon) (ops_at w os) -> calm_line w os -> closes_last (negb w) os ->
  an (negb w) = false -> Forall plain_dop (ops_at (negb w) os) -> all_written (negb w) rs ->
  let sent := written (ops_at (negb w) os) in string_ok sent -> Forall (fun c => is_assigned c = true) sent -> line_terminated sent ->
  (136 <= b)%nat -> (length (emitted (inner (dout (here (end_of (negb w) e))))) <= m)%nat -> (str_len sent + 2 <= k)%nat ->
  heard w (fst (talk (at_start nel lsps cr an o true) (at_start nel lsps cr an o false) (os ++ listen w b m k))) = sent.
Proof. exact talk_delivered. Qed.
Print Assumptions C103_delivered.

(** A question, an answer that arrives in two parts, a reply, the end.  The second end
    (false) sends its line ends as CR LF. *)
Definition question : list N := [0x77; 0x68; 0x6F; 0x3F; 0xA].
Definition answer : list N := [0xE9; 0x1F600; 0xA].
Definition reply : list N := [0x68; 0x69; 0x2C; 0x20; 0xE9; 0xA].
Definition whole_talk : list (bool * top) :=
  [(false, TOut (OpWriteStr question)); (false, TOut OpFlush); (true, TRead 136 (Some (3, Active)%nat)); (true, TRead 136 (Some (9, Active)%nat));
   (true, TOut (OpWriteStr [0x65; 0x301; 0x1F600; 0xA])); (false, TRead 136 (Some (1, Active)%nat)); (false, TRead 136 (Some (9, Active)%nat));
   (false, TOut (OpWriteText reply)); (false, TOut OpClose); (true, TRead 136 (Some (99, End)%nat))].
Definition talked := talk (at_start (fun _ => false) (fun _ => false) negb (fun _ => false) (fun _ => []) true) (at_start (fun _ => false) (fun _ => false) negb (fun _ => false) (fun _ => []) false) whole_talk.
Example C103_example :
  heard true (fst talked) = question ++ reply /\ heard false (fst talked) = answer /\
  written (ops_at false whole_talk) = question ++ reply /\ written (ops_at true whole_talk) = answer /\
  calm_line true whole_talk /\ calm_line false whole_talk /\ closes_last true whole_talk /\ closes_last false whole_talk /\ has_closed false whole_talk (fst talked) /\ all_arrived true (snd talked) /\ all_arrived false (snd talked) /\ over (end_of true (snd talked)) = true /\
  all_written true (fst talked) /\ all_written false (fst talked) /\
  string_ok (written (ops_at false whole_talk)) /\ string_ok (written (ops_at true whole_talk)) /\
  forallb is_assigned (question ++ reply ++ answer) = true.
Proof.
  do 4 (split; [vm_compute; reflexivity|]).
  split; [unfold whole_talk; repeat (constructor; [cbn; intros; auto; discriminate|]); constructor|]. split; [unfold whole_talk; repeat (constructor; [cbn; intros; auto; discriminate|]); constructor|].
  split; [intros a b E; exfalso; unfold whole_talk in E; do 10 (destruct a as [|? a]; [discriminate E|injection E as _ E]); destruct a; discriminate E|].
  split; [intros a b E; unfold whole_talk in E; do 8 (destruct a as [|? a]; [discriminate E|injection E as _ E]); destruct a as [|? a]; [injection E as <-; constructor; [intro K; discriminate K|constructor]|]; injection E as _ E; destruct a as [|? a]; [discriminate E|injection E as _ E]; destruct a; discriminate E|].
  split; [exists 8%nat; split; vm_compute; reflexivity|].
  do 3 (split; [vm_compute; reflexivity|]).
  split; [unfold all_written; replace (results_at true (fst talked)) with [DGot (ROk 0 Active) []; DGot (ROk 5 Active) question; DWrote None; DGot (ROk 7 End) reply] by (vm_compute; reflexivity); repeat constructor|].
  split; [unfold all_written; replace (results_at false (fst talked)) with [DWrote None; DWrote None; DGot (ROk 0 Active) []; DGot (ROk 7 Active) answer; DWrote None; DWrote None] by (vm_compute; reflexivity); repeat constructor|].
  split; [apply basic_text_spec; vm_compute; reflexivity|]. split; [apply basic_text_spec; vm_compute; reflexivity|]. vm_compute. reflexivity.
Qed.
Print Assumptions C103_example.

(** A question without a line end is not heard, even when it has been flushed, all of it
    has arrived and the connection reports a push: waiting for it and then answering
    never ends. *)
Theorem C103_unfinished_held : exists os, 
  let c := talk (at_start (fun _ => false) (fun _ => false) (fun _ => false) (fun _ => false) (fun _ => []) true) (at_start (fun _ => false) (fun _ => false) (fun _ => false) (fun _ => false) (fun _ => []) false) os in
  written (ops_at false os) = [0x77; 0x68; 0x6F; 0x3F; 0x20] /\ all_arrived true (snd c) /\ results_at false (fst c) = [DWrote None; DWrote None] /\
  left_room (read_sizes (ops_at true os)) (read_results (results_at true (fst c))) /\ heard true (fst c) = [].
Proof.
  exists [(false, TOut (OpWriteStr [0x77; 0x68; 0x6F; 0x3F; 0x20])); (false, TOut OpFlush); (true, TRead 136 (Some (9, Push)%nat))]. cbv zeta.
  do 3 (split; [vm_compute; reflexivity|]). split; [|vm_compute; reflexivity]. exists [], 136%nat, [], 0%nat, Push, []. split; [reflexivity|]. split; [vm_compute; reflexivity|lia].
Qed.
Print Assumptions C103_unfinished_held.

(** The same if the connection reports pushes, as long as they come after line ends and
    every line begins with a starter. *)
Theorem C103_pushed_heard : forall nel lsps cr an o os rs e w, talk (at_start nel lsps cr an o true) (at_start nel lsps cr an o false) os = (rs, e) ->
  Forall (fun x => x <> DOut OpAbandon) (ops_at w os) -> no_failures w os -> pushes_after_lines nel lsps cr an o w os -> closes_last (negb w) os ->
  an (negb w) = false -> Forall plain_dop (ops_at (negb w) os) -> all_written (negb w) rs ->
  let sent := written (ops_at (negb w) os) in string_ok sent -> Forall (fun c => is_assigned c = true) sent -> lines_begin sent ->
  (exists more, ended_text sent = heard w rs ++ more) /\ (reached_end (read_results (results_at w rs)) -> heard w rs = ended_text sent).
Proof. exact pushed_heard. Qed.
Print Assumptions C103_pushed_heard.
Theorem C103_pushed_prompt : forall nel lsps cr an o os rs e w, talk (at_start nel lsps cr an o true) (at_start nel lsps cr an o false) os = (rs, e) ->
  Forall (fun x => x <> DOut OpAbandon) (ops_at w os) -> no_failures w os -> pushes_after_lines nel lsps cr an o w os -> all_arrived w e -> left_room (read_sizes (ops_at w os)) (read_results (results_at w rs)) ->
  an (negb w) = false -> Forall plain_dop (ops_at (negb w) os) -> all_written (negb w) rs ->
  let sent := written (ops_at (negb w) os) in string_ok sent -> Forall (fun c => is_assigned c = true) sent -> lines_begin sent ->
  (line_terminated sent -> heard w rs = sent) /\ (forall l u, sent = l ++ [0xA] ++ u -> exists v, heard w rs = l ++ [0xA] ++ v).
Proof. exact pushed_prompt. Qed.
Print Assumptions C103_pushed_prompt.
Theorem C103_pushed_lines : forall nel lsps cr an o os rs e w, talk (at_start nel lsps cr an o true) (at_start nel lsps cr an o false) os = (rs, e) ->
  Forall (fun x => x <> DOut OpAbandon) (ops_at w os) -> no_failures w os -> pushes_after_lines nel lsps cr an o w os -> closes_last (negb w) os ->
  an (negb w) = false -> o (negb w) = [] -> Forall plain_dop (ops_at (negb w) os) -> Forall line_op (outs (ops_at (negb w) os)) -> all_written (negb w) rs ->
  let sent := written (ops_at (negb w) os) in Forall (fun c => is_assigned c = true) sent -> lines_begin sent ->
  (exists more, sent = heard w rs ++ more) /\ (reached_end (read_results (results_at w rs)) -> heard w rs = sent) /\
  (all_arrived w e -> left_room (read_sizes (ops_at w os)) (read_results (results_at w rs)) -> heard w rs = sent).
Proof. exact pushed_talk_lines. Qed.
Print Assumptions C103_pushed_lines.
Theorem C103_pushed_delivered : forall nel lsps cr an o os rs e w b m k, talk (at_start nel lsps cr an o true) (at_start nel lsps cr an o false) os = (rs, e) ->
  Forall (fun x => x <> DOut OpAbandon) (ops_at w os) -> no_failures w os -> pushes_after_lines nel lsps cr an o w os -> closes_last (negb w) os ->
  an (negb w) = false -> Forall plain_dop (ops_at (negb w) os) -> all_written (negb w) rs ->
  let sent := written (ops_at (negb w) os) in string_ok sent -> Forall (fun c => is_assigned c = true) sent -> lines_begin sent -> line_terminated sent ->
  (136 <= b)%nat -> (length (emitted (inner (dout (here (end_of (negb w) e))))) <= m)%nat -> (str_len sent + 3 <= k)%nat ->
  heard w (fst (talk (at_start nel lsps cr an o true) (at_start nel lsps cr an o false) (os ++ listen w b m k))) = sent.
Proof. exact pushed_delivered. Qed.
Print Assumptions C103_pushed_delivered.

(** A push after the question and one after the reply; the question is sent with CR LF. *)
Definition pushed_talk : list (bool * top) :=
  [(false, TOut (OpWriteStr question)); (true, TRead 136 (Some (3, Active)%nat)); (true, TRead 136 (Some (3, Push)%nat)); (false, TOut (OpWriteText reply)); (true, TRead 136 (Some (99, Push)%nat))].
Example C103_pushed_example :
  let c := talk (at_start (fun _ => false) (fun _ => false) negb (fun _ => false) (fun _ => []) true) (at_start (fun _ => false) (fun _ => false) negb (fun _ => false) (fun _ => []) false) in
  heard true (fst (c pushed_talk)) = question ++ reply /\ no_failures true pushed_talk /\ pushes_after_lines (fun _ => false) (fun _ => false) negb (fun _ => false) (fun _ => []) true pushed_talk /\
  closes_last false pushed_talk /\ all_arrived true (snd (c pushed_talk)) /\ lines_begin (written (ops_at false pushed_talk)) /\ map snd (fst (c pushed_talk)) = [DWrote None; DGot (ROk 0 Active) []; DGot (ROk 5 Push) question; DWrote None; DGot (ROk 7 Push) reply].
Proof.
  cbv zeta. split; [vm_compute; reflexivity|]. split; [unfold pushed_talk; repeat (constructor; [cbn; intros; auto; discriminate|]); constructor|].
  split.
  { intros a b n c E. unfold pushed_talk in E. do 2 (destruct a as [|? a]; [discriminate E|injection E as <- E]). destruct a as [|? a].
    - injection E as <- <- _. right. exists [0x77; 0x68; 0x6F; 0x3F; 0xD]. vm_compute. reflexivity.
    - injection E as <- E. destruct a as [|? a]; [discriminate E|injection E as <- E]. destruct a as [|? a]; [|injection E as <- E; destruct a; discriminate E].
      injection E as <- <- _. right. exists [0x77; 0x68; 0x6F; 0x3F; 0xD; 0xA; 0x68; 0x69; 0x2C; 0x20; 0xE9; 0xD]. vm_compute. reflexivity. }
  split; [intros a b E; exfalso; unfold pushed_talk in E; do 5 (destruct a as [|? a]; [discriminate E|injection E as _ E]); destruct a; discriminate E|].
  split; [vm_compute; reflexivity|]. split; [|vm_compute; reflexivity]. split; [apply starts_ok_iff; vm_compute; reflexivity|].
  intros l u E. vm_compute in E. do 4 (destruct l as [|? l]; [discriminate E|injection E as _ E]). destruct l as [|? l]; [injection E as <-; apply starts_ok_iff; vm_compute; reflexivity|injection E as _ E].
  do 5 (destruct l as [|? l]; [discriminate E|injection E as _ E]). destruct l as [|? l]; [injection E as <-; apply starts_ok_iff; vm_compute; reflexivity|]. injection E as _ E. destruct l; discriminate E.
Qed.
Print Assumptions C103_pushed_example.
(** A push after a line end changes the text if the next line begins with a combining
    character (U+34F is put before it), and a push in the middle of a line if it cuts a
    character from what it combines with. *)
Theorem C103_pushed_conditions : (exists os,
  let c := talk (at_start (fun _ => false) (fun _ => false) (fun _ => false) (fun _ => false) (fun _ => []) true) (at_start (fun _ => false) (fun _ => false) (fun _ => false) (fun _ => false) (fun _ => []) false) os in
  written (ops_at false os) = [0x61; 0xA; 0x301; 0xA] /\ is_basic_text [0x61; 0xA; 0x301; 0xA] = true /\ all_arrived true (snd c) /\ all_written false (fst c) /\ heard true (fst c) = [0x61; 0xA; 0x34F; 0x301; 0xA]) /\
  (exists os,
  let c := talk (at_start (fun _ => false) (fun _ => false) (fun _ => false) (fun _ => false) (fun _ => []) true) (at_start (fun _ => false) (fun _ => false) (fun _ => false) (fun _ => false) (fun _ => []) false) os in
  written (ops_at false os) = [0x62; 0x301; 0xA] /\ is_basic_text [0x62; 0x301; 0xA] = true /\ all_arrived true (snd c) /\ all_written false (fst c) /\ heard true (fst c) = [0x62; 0x34F; 0x301; 0xA]).
Proof.
  split.
  - exists [(false, TOut (OpWriteStr [0x61; 0xA; 0x301; 0xA])); (true, TRead 136 (Some (2, Push)%nat)); (true, TRead 136 (Some (9, Active)%nat))]. cbv zeta. do 3 (split; [vm_compute; reflexivity|]).
    split; [|vm_compute; reflexivity]. match goal with |- all_written false (fst ?x) => replace (fst x) with [(false, DWrote None); (true, DGot (ROk 2 Push) [0x61; 0xA]); (true, DGot (ROk 5 Active) [0x34F; 0x301; 0xA])] by (vm_compute; reflexivity) end. repeat constructor.
  - exists [(false, TOut (OpWriteStr [0x62; 0x301; 0xA])); (true, TRead 136 (Some (1, Push)%nat)); (true, TRead 136 (Some (9, Active)%nat))]. cbv zeta. do 3 (split; [vm_compute; reflexivity|]).
    split; [|vm_compute; reflexivity]. match goal with |- all_written false (fst ?x) => replace (fst x) with [(false, DWrote None); (true, DGot (ROk 0 Push) []); (true, DGot (ROk 6 Active) [0x62; 0x34F; 0x301; 0xA])] by (vm_compute; reflexivity) end. repeat constructor.
Qed.
Print Assumptions C103_pushed_conditions.

(** An end that writes with colours: the other end hears the text without them.  The
    sequences may be cut into several writes, and the other end may use colours too.  If
    the last line is not ended, or a sequence comes after its end, another line end is
    heard. *)
Theorem C103_colour_heard : forall nel lsps cr an o os rs e w xs v, talk (at_start nel lsps cr an o true) (at_start nel lsps cr an o false) os = (rs, e) ->
  Forall (fun x => x <> DOut OpAbandon) (ops_at w os) -> calm_line w os -> closes_last (negb w) os ->
  an (negb w) = true -> ops_at (negb w) os = map dfop_op xs -> dfops_ok [] xs (results_at (negb w) rs) -> all_written (negb w) rs ->
  let sent := dshown [] xs (results_at (negb w) rs) in uncoloured sent v -> string_ok v -> Forall (fun c => is_assigned c = true) v ->
  (line_terminated sent -> (exists more, v = heard w rs ++ more) /\ (reached_end (read_results (results_at w rs)) -> heard w rs = v)) /\
  (~ line_terminated sent -> (exists more, v ++ [0xA] = heard w rs ++ more) /\ (reached_end (read_results (results_at w rs)) -> heard w rs = v ++ [0xA])).
Proof. exact colour_heard. Qed.
Print Assumptions C103_colour_heard.
Theorem C103_colour_prompt : forall nel lsps cr an o os rs e w xs v, talk (at_start nel lsps cr an o true) (at_start nel lsps cr an o false) os = (rs, e) ->
  Forall (fun x => x <> DOut OpAbandon) (ops_at w os) -> calm_line w os -> all_arrived w e -> left_room (read_sizes (ops_at w os)) (read_results (results_at w rs)) ->
  an (negb w) = true -> ops_at (negb w) os = map dfop_op xs -> dfops_ok [] xs (results_at (negb w) rs) -> all_written (negb w) rs ->
  let sent := dshown [] xs (results_at (negb w) rs) in uncoloured sent v -> string_ok v -> Forall (fun c => is_assigned c = true) v -> line_terminated sent ->
  heard w rs = v.
Proof. exact colour_prompt. Qed.
Print Assumptions C103_colour_prompt.
Theorem C103_colour_delivered : forall nel lsps cr an o os rs e w xs v b m k, talk (at_start nel lsps cr an o true) (at_start nel lsps cr an o false) os = (rs, e) ->
  Forall (fun x => x <> DOut OpAbandon) (ops_at w os) -> calm_line w os -> closes_last (negb w) os ->
  an (negb w) = true -> ops_at (negb w) os = map dfop_op xs -> dfops_ok [] xs (results_at (negb w) rs) -> all_written (negb w) rs ->
  let sent := dshown [] xs (results_at (negb w) rs) in uncoloured sent v -> string_ok v -> Forall (fun c => is_assigned c = true) v -> line_terminated sent ->
  (136 <= b)%nat -> (length (emitted (inner (dout (here (end_of (negb w) e))))) <= m)%nat -> (str_len v + 2 <= k)%nat ->
  heard w (fst (talk (at_start nel lsps cr an o true) (at_start nel lsps cr an o false) (os ++ listen w b m k))) = v.
Proof. exact colour_delivered. Qed.
Print Assumptions C103_colour_delivered.

(** A question with one word in red; the sequence that ends the red is cut by a read of
    the answer's first part, which has no line end.  All but the last read leave text
    under way. *)
Definition colour_xs : list dfop :=
  [DFOut (FWrite [] (mkpainted [0x77] [([0x33; 0x31], [0x68; 0x6F])]) [0x1B; 0x5B]); DFRead 136; DFOut (FWrite [0x30; 0x6D] (mkpainted [0x3F; 0xA] []) []); DFOut FClose].
Definition colour_talk : list (bool * top) :=
  [(false, TOut (OpWriteStr [0x77; 0x1B; 0x5B; 0x33; 0x31; 0x6D; 0x68; 0x6F; 0x1B; 0x5B])); (true, TOut (OpWriteStr [0x61])); (false, TRead 136 (Some (1, Active)%nat)); (true, TRead 136 (Some (4, Active)%nat));
   (false, TOut (OpWriteStr [0x30; 0x6D; 0x3F; 0xA])); (false, TOut OpClose); (true, TRead 136 (Some (99, End)%nat))].
Example C103_colour_example :
  let c := talk (at_start (fun _ => false) (fun _ => false) (fun _ => true) negb (fun _ => []) true) (at_start (fun _ => false) (fun _ => false) (fun _ => true) negb (fun _ => []) false) colour_talk in
  heard true (fst c) = question /\ over (end_of true (snd c)) = true /\ calm_line true colour_talk /\ closes_last false colour_talk /\ ops_at false colour_talk = map dfop_op colour_xs /\
  results_at false (fst c) = [DWrote None; DGot (ROk 0 Active) []; DWrote None; DWrote None] /\ dfops_ok [] colour_xs (results_at false (fst c)) /\ all_written false (fst c) /\
  uncoloured (dshown [] colour_xs (results_at false (fst c))) question /\ line_terminated (dshown [] colour_xs (results_at false (fst c))) /\ string_ok question /\ forallb is_assigned question = true /\
  emitted (inner (dout (here (end_of false (snd c))))) = [0x77; 0x1B; 0x5B; 0x33; 0x31; 0x6D; 0x68; 0x6F; 0x1B; 0x5B; 0x30; 0x6D; 0x3F; 0xD; 0xA].
Proof.
  cbv zeta. set (c := talk _ _ colour_talk). assert (RS : results_at false (fst c) = [DWrote None; DGot (ROk 0 Active) []; DWrote None; DWrote None]) by (vm_compute; reflexivity).
  assert (SH : dshown [] colour_xs (results_at false (fst c)) = 0x77 :: sgr [0x33; 0x31] ++ 0x68 :: 0x6F :: sgr [0x30] ++ [0x3F; 0xA]) by (vm_compute; reflexivity).
  split; [vm_compute; reflexivity|]. split; [vm_compute; reflexivity|].
  split; [unfold colour_talk; repeat (constructor; [cbn; intros; auto; discriminate|]); constructor|].
  split; [intros a b E; unfold colour_talk in E; do 5 (destruct a as [|? a]; [discriminate E|injection E as _ E]); destruct a as [|? a]; [injection E as <-; constructor; [intro K; discriminate K|constructor]|]; injection E as _ E; destruct a as [|? a]; [discriminate E|injection E as _ E]; destruct a; discriminate E|].
  split; [vm_compute; reflexivity|]. split; [exact RS|]. split.
  { rewrite RS.
    assert (PR : Forall parameter [0x33; 0x31] /\ Forall parameter [0x30]) by (split; repeat constructor; unfold parameter; cbn; discriminate).
    split; [split; [|discriminate]; split; [split; [constructor; [cbn; intuition discriminate|constructor; [cbn; intuition discriminate|constructor]]|constructor; [apply PR|constructor]]|split; [exists [], [0x6D]; split; [constructor|]; split; [discriminate|reflexivity]|left; now split]]|].
    split; [exact I|]. split; [split; [|discriminate]|].
    - split; [split; [constructor; [cbn; intuition discriminate|constructor]|constructor]|]. split; [exists [], (sgr []); split; [constructor|]; split; [discriminate|reflexivity]|].
      right. split; [discriminate|]. split; [discriminate|]. exists [0x30]. split; [apply PR|reflexivity].
    - split; [split; [exact I|discriminate]|exact I]. }
  split; [unfold all_written; rewrite RS; repeat constructor|]. rewrite SH.
  split; [apply unc_char; [discriminate|]; apply (unc_sgr [0x33; 0x31]); [repeat constructor; unfold parameter; lia|]; apply unc_char; [discriminate|]; apply unc_char; [discriminate|]; apply (unc_sgr [0x30]); [repeat constructor; unfold parameter; lia|]; apply unc_char; [discriminate|]; apply unc_char; [discriminate|]; apply unc_nil|].
  split; [right; exists (0x77 :: sgr [0x33; 0x31] ++ 0x68 :: 0x6F :: sgr [0x30] ++ [0x3F]); reflexivity|].
  split; [apply basic_text_spec; vm_compute; reflexivity|]. split; vm_compute; reflexivity.
Qed.
Print Assumptions C103_colour_example.

(** Resetting the colour after the line end makes the other end hear an empty line that
    was not written.  Closing is then refused, unless a line has been read since. *)
Theorem C103_colour_extra_line : exists os,
  let c := talk (at_start (fun _ => false) (fun _ => false) (fun _ => false) negb (fun _ => []) true) (at_start (fun _ => false) (fun _ => false) (fun _ => false) negb (fun _ => []) false) os in
  ops_at false os = [DOut (OpWriteStr ([0x61; 0xA] ++ sgr [])); DRead 136; DOut OpClose] /\ results_at false (fst c) = [DWrote None; DGot (ROk 2 Active) [0x62; 0xA]; DWrote None] /\
  heard true (fst c) = [0x61; 0xA; 0xA].
Proof.
  exists [(false, TOut (OpWriteStr ([0x61; 0xA] ++ sgr []))); (true, TOut (OpWriteStr [0x62; 0xA])); (false, TRead 136 (Some (9, Active)%nat)); (false, TOut OpClose); (true, TRead 136 (Some (9, End)%nat))]. cbv zeta.
  do 2 (split; [vm_compute; reflexivity|]). vm_compute. reflexivity.
Qed.
Print Assumptions C103_colour_extra_line.
