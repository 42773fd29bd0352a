(** A line server over a TextDuplexer: C112. *)
From Coq Require Import NArith List Bool.
From Verif Require Import Base Chars TextUtils Utf8 Input Output SpecText TextFacts SpecRead SpecCat SpecWrite StdBuf Duplex SpecDuplex DuplexBuf SpecDuplexBuf AsciiProps SpecAscii Serve SpecServe ServeProps ServeWait.
Import ListNotations.
Local Open Scope N_scope.

(** ** C112 *)
(** If neither side fails, the server reads every line of the text that the peer sends,
    however it arrives, answers each, and ends; closing succeeds, and exactly the answers
    have been sent, in order. *)
Theorem C112_all : forall nel lsps cr p script cap answer ps, (136 <= cap)%nat -> no_fail script -> Forall (fun x => ~ In 0xA x) ps -> gives nel lsps script (concat (map (fun x => x ++ [0xA]) ps)) -> (forall l, complete_lines (answer l)) ->
  exists n, forall fuel m, (n <= fuel)%nat -> (n <= m)%nat -> exists b w, serve fuel m answer (new_dbuf (new_duplexer nel lsps cr false (mksink p [] false) script) cap) = Some (map (fun x => encode_all x ++ [0xA]) ps, ServedAll, b) /\
    close (dout (dover b)) = (None, w) /\ emitted (inner w) = p ++ as_sent cr (concat (map (fun x => answer (encode_all x ++ [0xA])) ps)).
Proof. exact serve_all. Qed.
Print Assumptions C112_all.
(** The server says how many bytes the line has: "1", "2" or "many" *)
Definition ex112 (l : list N) : list N := match l with [_; _] => [0x31; 0xA] | [_; _; _] => [0x32; 0xA] | _ => [0x6D; 0x61; 0x6E; 0x79; 0xA] end.
Lemma ex112_lines : forall l, complete_lines (ex112 l).
Proof.
  assert (K : forall s u, s = u ++ [0xA] -> Forall plain_ascii s -> complete_lines s) by (intros s u E P; split; [now apply plain_ok|now exists u]).
  assert (M : complete_lines [0x6D; 0x61; 0x6E; 0x79; 0xA]) by (apply (K _ [0x6D; 0x61; 0x6E; 0x79] eq_refl); repeat (apply Forall_cons; [apply plainb_spec; reflexivity|]); apply Forall_nil).
  assert (M1 : complete_lines [0x31; 0xA]) by (apply (K _ [0x31] eq_refl); repeat (apply Forall_cons; [apply plainb_spec; reflexivity|]); apply Forall_nil).
  assert (M2 : complete_lines [0x32; 0xA]) by (apply (K _ [0x32] eq_refl); repeat (apply Forall_cons; [apply plainb_spec; reflexivity|]); apply Forall_nil).
  intros [|a [|b [|c [|d l]]]]; assumption.
Qed.
Definition ex112_in : list event := [Chunk [0x61; 0xA; 0x65] Active; Chunk [0x301; 0xD; 0xA] Active; Chunk [0x62; 0x62; 0x62] Active].
Example C112_example_all : no_fail ex112_in /\ gives false false ex112_in (concat (map (fun p => p ++ [0xA]) [[0x61]; [0xE9]; [0x62; 0x62; 0x62]])) /\ (forall l, complete_lines (ex112 l)) /\
  exists b w, serve 9 9 ex112 (new_dbuf (new_duplexer false false true false (mksink [] [] false) ex112_in) 136) = Some ([[0x61; 0xA]; [0xC3; 0xA9; 0xA]; [0x62; 0x62; 0x62; 0xA]], ServedAll, b) /\
    close (dout (dover b)) = (None, w) /\ emitted (inner w) = [0x31; 0xD; 0xA; 0x32; 0xD; 0xA; 0x6D; 0x61; 0x6E; 0x79; 0xD; 0xA].
Proof.
  split; [intros [K|[K|[K|[]]]]; discriminate|]. split.
  { exists [136; 136; 136; 136]%nat. do 3 eexists. split; [vm_compute; reflexivity|]. split; [eexists [_; _; _]; do 2 eexists; reflexivity|vm_compute; reflexivity]. }
  split; [exact ex112_lines|]. do 2 eexists. split; [vm_compute; reflexivity|]. split; vm_compute; reflexivity.
Qed.

(** Whatever the peer and the stream below do, and however the server ends: if closing
    succeeds, exactly the answers to the lines that were read have been sent. *)
Theorem C112_closed : forall nel lsps cr p o script cap fuel m answer ls e b w, (forall l, complete_lines (answer l)) ->
  serve fuel m answer (new_dbuf (new_duplexer nel lsps cr false (mksink p o false) script) cap) = Some (ls, e, b) -> close (dout (dover b)) = (None, w) ->
  emitted (inner w) = p ++ as_sent cr (concat (map answer ls)).
Proof. exact serve_closed. Qed.
Print Assumptions C112_closed.
(** the peer's stream fails after "a" and "b" without a line end *)
Example C112_example_closed : exists b w,
  serve 9 9 ex112 (new_dbuf (new_duplexer false false false false (mksink [] [] false) [Chunk [0x61; 0xA; 0x62] Active; Fail]) 136) = Some ([[0x61; 0xA]], ReadFailed, b) /\
  close (dout (dover b)) = (None, w) /\ emitted (inner w) = [0x31; 0xA].
Proof. do 2 eexists. split; [vm_compute; reflexivity|]. split; vm_compute; reflexivity. Qed.

(** The server is a conversation as in C111, in which every line read is answered at once:
    all that is known about these holds of it.  It stops at the first failure, and says so. *)
Theorem C112_conversation : forall fuel m answer b ls e b', serve fuel m answer b = Some (ls, e, b') ->
  exists rs, btalk fuel b (dialogue answer ls e) = Some (rs, b') /\ dialogue_results ls e rs.
Proof. exact serve_talk. Qed.
Print Assumptions C112_conversation.
Example C112_example_conversation : exists b,
  serve 9 9 ex112 (new_dbuf (new_duplexer false false false false (mksink [] [WOk; WErr 1] false) ex112_in) 136) = Some ([[0x61; 0xA]; [0xC3; 0xA9; 0xA]], WriteFailed, b) /\
  emitted (inner (dout (dover b))) = [0x31; 0xA; 0x32].
Proof. eexists. split; vm_compute; reflexivity. Qed.

(** When the server waits for its peer.  The failure after [used] marks the moment at which
    the server asks for more; [t] is the text that has arrived by then, with a line end.
    Exactly the lines that were read have been answered.  What has not been answered is at
    most the last line, and before it a text [given] that fits the buffer. *)
Theorem C112_waiting : forall nel lsps cr p used rest cap fuel m answer ls b t, (136 <= cap)%nat -> (forall l, complete_lines (answer l)) ->
  serve fuel m answer (new_dbuf (new_duplexer nel lsps cr false (mksink p [] false) (used ++ Fail :: rest)) cap) = Some (ls, ReadFailed, b) -> dscript (dover b) = rest -> gives nel lsps used t ->
  emitted (inner (dout (dover b))) = p ++ as_sent cr (concat (map answer ls)) /\ Forall (fun l => exists u, l = u ++ [0xA] /\ ~ In 0xA u) ls /\
  exists part given line, encode_all t = concat ls ++ part ++ encode_all (given ++ line) /\ ~ In 0xA part /\ (str_len given + 4 <= cap)%nat /\ (line = [] \/ exists l, line = l ++ [0xA] /\ ~ In 0xA l).
Proof. exact serve_waiting. Qed.
Print Assumptions C112_waiting.
(** "a" has been answered, "b" waits for the rest of its line *)
Example C112_example_waiting : exists b, serve 9 9 ex112 (new_dbuf (new_duplexer false false false false (mksink [] [] false) ([Chunk [0x61; 0xA; 0x62] Active] ++ Fail :: [Chunk [0xA] Active])) 136) = Some ([[0x61; 0xA]], ReadFailed, b) /\
  dscript (dover b) = [Chunk [0xA] Active] /\ gives false false [Chunk [0x61; 0xA; 0x62] Active] [0x61; 0xA; 0x62; 0xA].
Proof.
  eexists. split; [vm_compute; reflexivity|]. split; [reflexivity|]. exists [136; 136; 136]%nat. do 3 eexists. split; [vm_compute; reflexivity|]. split; [eexists [_; _]; do 2 eexists; reflexivity|vm_compute; reflexivity].
Qed.
(** If the text that has arrived fits the buffer, at most the last line has not been
    answered; and if what arrived has no escapes and ends with a line feed, every line has. *)
Theorem C112_waiting_short : forall nel lsps cr p used rest cap fuel m answer ls b t, (136 <= cap)%nat -> (forall l, complete_lines (answer l)) ->
  serve fuel m answer (new_dbuf (new_duplexer nel lsps cr false (mksink p [] false) (used ++ Fail :: rest)) cap) = Some (ls, ReadFailed, b) -> dscript (dover b) = rest -> gives nel lsps used t -> (str_len t + 4 <= cap)%nat ->
  emitted (inner (dout (dover b))) = p ++ as_sent cr (concat (map answer ls)) /\ Forall (fun l => exists u, l = u ++ [0xA] /\ ~ In 0xA u) ls /\
  exists last, encode_all t = concat ls ++ last /\ (last = [] \/ exists l, last = l ++ [0xA] /\ ~ In 0xA l) /\
    (~ In 0x1B (stream_text used) -> last_opt (stream_text used) = Some 0xA -> last = []).
Proof. exact serve_short. Qed.
Print Assumptions C112_waiting_short.
Example C112_example_short : exists b, serve 9 9 ex112 (new_dbuf (new_duplexer false false false false (mksink [] [] false) ([Chunk [0x61; 0xA; 0x62] Active; Chunk [0x62; 0xD; 0xA] Active] ++ Fail :: [Chunk [0xA] Active])) 136) = Some ([[0x61; 0xA]; [0x62; 0x62; 0xA]], ReadFailed, b) /\
  dscript (dover b) = [Chunk [0xA] Active] /\ gives false false [Chunk [0x61; 0xA; 0x62] Active; Chunk [0x62; 0xD; 0xA] Active] [0x61; 0xA; 0x62; 0x62; 0xA] /\
  emitted (inner (dout (dover b))) = [0x31; 0xA; 0x32; 0xA].
Proof.
  eexists. split; [vm_compute; reflexivity|]. split; [reflexivity|]. split; [|vm_compute; reflexivity]. exists [136; 136; 136]%nat. do 3 eexists. split; [vm_compute; reflexivity|]. split; [eexists [_; _]; do 2 eexists; reflexivity|vm_compute; reflexivity].
Qed.
(** So it is if at most about a quarter of the buffer's size has arrived (C78). *)
Theorem C112_waiting_few : forall nel lsps cr p used rest cap fuel m answer ls b t, (136 <= cap)%nat -> (forall l, complete_lines (answer l)) ->
  serve fuel m answer (new_dbuf (new_duplexer nel lsps cr false (mksink p [] false) (used ++ Fail :: rest)) cap) = Some (ls, ReadFailed, b) -> dscript (dover b) = rest -> gives nel lsps used t -> (4 * str_len (stream_text used) + 5 <= cap)%nat ->
  emitted (inner (dout (dover b))) = p ++ as_sent cr (concat (map answer ls)) /\ Forall (fun l => exists u, l = u ++ [0xA] /\ ~ In 0xA u) ls /\
  exists last, encode_all t = concat ls ++ last /\ (last = [] \/ exists l, last = l ++ [0xA] /\ ~ In 0xA l) /\
    (~ In 0x1B (stream_text used) -> last_opt (stream_text used) = Some 0xA -> last = []).
Proof. exact serve_few. Qed.
Print Assumptions C112_waiting_few.
Example C112_example_few : Nat.leb (4 * str_len (stream_text ([Chunk [0x61; 0xA; 0x62] Active; Chunk [0x62; 0xD; 0xA] Active]%N)) + 5)%nat 136%nat = true.
Proof. vm_compute. reflexivity. Qed.
(** The text [given] may have complete lines, and then both sides wait for ever if the peer
    waits for their answers: a call that hands out the rest of a text that did not fit the
    buffer before asks the stream for more first. *)
Theorem C112_all_answered_refuted : exists used l1 l2 b, no_fail used /\ gives false false used (l1 ++ [0xA] ++ l2 ++ [0xA]) /\ stream_text used = l1 ++ [0xA] ++ l2 ++ [0xA] /\ ~ In 0xA l1 /\ ~ In 0xA l2 /\
  serve 9 9 ex112 (new_dbuf (new_duplexer false false false false (mksink [] [] false) (used ++ [Fail])) 136) = Some ([l1 ++ [0xA]], ReadFailed, b) /\
  emitted (inner (dout (dover b))) = ex112 (l1 ++ [0xA]).
Proof.
  exists [Chunk (repeat 0x61 132 ++ [0xA; 0x62; 0xA]) Active], (repeat 0x61 132), [0x62]. eexists. split; [intros [K|[]]; discriminate|]. split.
  { exists [136; 136; 136]%nat. do 3 eexists. split; [vm_compute; reflexivity|]. split; [eexists [_; _]; do 2 eexists; reflexivity|vm_compute; reflexivity]. }
  split; [reflexivity|]. split; [intro K; apply repeat_spec in K; discriminate|]. split; [cbn; intuition discriminate|]. split; vm_compute; reflexivity.
Qed.
Print Assumptions C112_all_answered_refuted.
