(** A program that sends each text it reads from a TextDuplexer back: C110. *)
From Coq Require Import NArith List Bool.
From Verif Require Import Base Chars TextUtils Utf8 Input Output Duplex DuplexCopy Echo SpecText TextFacts SpecRead SpecEscape SpecConv ReadFacts SpecWrite CopyProps SpecMore SpecCat SpecPrompt EchoProps EchoMore.
Import ListNotations.
Local Open Scope N_scope.

(** ** C110 *)
(** Whatever the streams do, the echo reads what a plain reader would read, what it
    sends is a beginning of what its calls received, and all of that if no call of
    the writing side failed. *)
Theorem C110_any : forall nel lsps cr p o sc sizes rs e d, echo false (new_duplexer nel lsps cr false (mksink p o false) sc) sizes = (rs, e, d) ->
  reads (new_input nel lsps) sc (firstn (length rs) sizes) = (rs, din d, dscript d) /\ prefix_of (emitted (inner (dout d))) (p ++ as_sent cr (received rs)) /\
  (e = None -> length rs = length sizes /\ emitted (inner (dout d)) = p ++ as_sent cr (received rs)).
Proof. exact echo_any. Qed.
Print Assumptions C110_any.
(** the second text is cut off after one character, and the echo stops *)
Definition ex110 : list event := [Chunk [0x61; 0xA; 0x62; 0x301] Active; Fail; Chunk [0xA; 0x63] Active].
Example C110_example_any : exists rs d, echo false (new_duplexer false false true false (mksink [] [WOk; WErr 1] false) ex110) [136; 136; 136; 136; 136]%nat = (rs, Some EWInner, d) /\
  length rs = 3%nat /\ received rs = [0x61; 0xA; 0x62; 0x301; 0xA] /\ emitted (inner (dout d)) = [0x61; 0xD; 0xA; 0x62].
Proof. do 2 eexists. split; [vm_compute; reflexivity|]. repeat split. Qed.

(** If neither stream fails, no call of the echo fails, everything that is received is
    sent back, and the writing side can be closed when the end has been reached. *)
Theorem C110_all : forall nel lsps cr p sc sizes rs e d, no_fail sc -> echo false (new_duplexer nel lsps cr false (mksink p [] false) sc) sizes = (rs, e, d) ->
  e = None /\ reads (new_input nel lsps) sc sizes = (rs, din d, dscript d) /\ emitted (inner (dout d)) = p ++ as_sent cr (received rs) /\
  (reached_end rs -> exists w, close (dout d) = (None, w) /\ emitted (inner w) = emitted (inner (dout d))).
Proof. exact echo_all. Qed.
Print Assumptions C110_all.
Definition ex110b : list event := [Chunk [0x61; 0xA; 0x62; 0x301] Active; Chunk [0xA; 0x63] Active].
Example C110_example_all : no_fail ex110b /\ exists rs d, echo false (new_duplexer false false true false (mksink [] [] false) ex110b) [136; 136; 136; 136]%nat = (rs, None, d) /\
  reached_end rs /\ emitted (inner (dout d)) = [0x61; 0xD; 0xA; 0x62; 0x301; 0xD; 0xA; 0x63; 0xD; 0xA].
Proof.
  split; [intros [K|[K|[]]]; discriminate|]. do 2 eexists. split; [vm_compute; reflexivity|]. split; [|reflexivity].
  eexists [_; _; _]. do 2 eexists. reflexivity.
Qed.

(** A peer that sends Basic Text of assigned characters, with either line ends and with
    or without a byte order mark, gets exactly this text back, however it reads what
    was sent. *)
Theorem C110_returned : forall bom cr1 nel lsps cr t sc sizes rs e d, string_ok t -> line_terminated t -> Forall (fun c => is_assigned c = true) t ->
  stream_text sc = stored bom cr1 t -> regular sc -> no_fail sc -> echo false (new_duplexer nel lsps cr false (mksink [] [] false) sc) sizes = (rs, e, d) -> reached_end rs ->
  received rs = t /\ emitted (inner (dout d)) = as_sent cr t /\
  forall nel2 lsps2 sc2 t2, stream_text sc2 = emitted (inner (dout d)) -> regular sc2 -> gives nel2 lsps2 sc2 t2 -> t2 = t.
Proof. exact echo_returned. Qed.
Print Assumptions C110_returned.
Definition ex110_t : list N := [0x61; 0xA; 0x62; 0x316; 0xA].
Definition ex110c : list event := [Chunk [0xFEFF; 0x61; 0xD] Active; Chunk [0xA; 0x62] Active; Chunk [0x316; 0xD; 0xA] Active].
Example C110_example_returned : string_ok ex110_t /\ line_terminated ex110_t /\ Forall (fun c => is_assigned c = true) ex110_t /\
  stream_text ex110c = stored true true ex110_t /\ regular ex110c /\ no_fail ex110c /\
  exists rs d, echo false (new_duplexer false false false false (mksink [] [] false) ex110c) [136; 136; 136; 136]%nat = (rs, None, d) /\ reached_end rs /\
  exists sc2, stream_text sc2 = emitted (inner (dout d)) /\ regular sc2 /\ gives true true sc2 ex110_t.
Proof.
  split; [apply basic_text_spec; vm_compute; reflexivity|]. split; [right; now exists [0x61; 0xA; 0x62; 0x316]|]. split; [repeat constructor|]. split; [reflexivity|].
  split; [split; [intros cs [K|[K|[K|[]]]]; discriminate|right; do 4 eexists; reflexivity]|]. split; [intros [K|[K|[K|[]]]]; discriminate|].
  do 2 eexists. split; [vm_compute; reflexivity|]. split; [eexists [_; _; _]; do 2 eexists; reflexivity|].
  exists [Chunk [0x61; 0xA; 0x62] Active; Chunk [0x316; 0xA] Active]. split; [reflexivity|]. split; [split; [intros cs [K|[K|[]]]; discriminate|right; do 4 eexists; reflexivity]|].
  exists [136; 136; 136]%nat. do 3 eexists. split; [vm_compute; reflexivity|]. split; [eexists [_; _]; do 2 eexists; reflexivity|vm_compute; reflexivity].
Qed.

(** While the conversation goes on, after a read that left four bytes of its buffer
    unused, what the peer has sent and not got back is at most its last line; and if what
    it sent has no escapes and ends with a line feed, nothing. *)
Theorem C110_prompt : forall nel lsps cr p used rest sizes rs e d j held, no_fail (used ++ rest) -> holds nel lsps used rest sizes rs j held -> left_room sizes rs ->
  echo false (new_duplexer nel lsps cr false (mksink p [] false) (used ++ rest)) sizes = (rs, e, d) ->
  emitted (inner (dout d)) = p ++ as_sent cr (delivered rs) /\ gives nel lsps used (delivered rs ++ held) /\ (held = [] \/ exists line, held = line ++ [0xA] /\ ~ In 0xA line) /\
  (~ In 0x1B (stream_text used) -> last_opt (stream_text used) = Some 0xA -> held = []).
Proof. exact echo_prompt. Qed.
Print Assumptions C110_prompt.
(** "a" and its line end are sent back, "b" with an acute is held *)
Definition ex110_used : list event := [Chunk [0x61; 0xD] Active; Chunk [0xA; 0x62; 0x301] Active].
Definition ex110_rest : list event := [Chunk [0x63; 0xA] Active].
Example C110_example_prompt : no_fail (ex110_used ++ ex110_rest) /\ exists rs d j, holds false false ex110_used ex110_rest [136; 136]%nat rs j [0x62; 0x301; 0xA] /\ left_room [136; 136]%nat rs /\
  echo false (new_duplexer false false false false (mksink [] [] false) (ex110_used ++ ex110_rest)) [136; 136]%nat = (rs, None, d) /\ emitted (inner (dout d)) = [0x61; 0xA].
Proof.
  split; [intros [K|[K|[K|[]]]]; discriminate|]. do 3 eexists. split; [split; [vm_compute; reflexivity|]|split; [|split; [vm_compute; reflexivity|vm_compute; reflexivity]]].
  - exists [136; 136; 136]%nat. do 3 eexists. split; [vm_compute; reflexivity|]. split; [eexists [_; _]; do 2 eexists; reflexivity|vm_compute; reflexivity].
  - eexists [136]%nat, 136%nat, [_], _, _, _. split; [reflexivity|]. split; [reflexivity|]. repeat constructor.
Qed.

(** and with its line end it is sent back *)
Example C110_example_ended : exists rs d, echo false (new_duplexer false false false false (mksink [] [] false) [Chunk [0x61; 0xD] Active; Chunk [0xA; 0x62; 0x301; 0xA] Active; Chunk [0x63] Active]) [136; 136]%nat = (rs, None, d) /\
  dscript d = [Chunk [0x63] Active] /\ left_room [136; 136]%nat rs /\ emitted (inner (dout d)) = [0x61; 0xA; 0x62; 0x301; 0xA].
Proof.
  do 2 eexists. split; [vm_compute; reflexivity|]. split; [reflexivity|]. split; [|vm_compute; reflexivity].
  eexists [136]%nat, 136%nat, [_], _, _, _. split; [reflexivity|]. split; [reflexivity|]. repeat constructor.
Qed.

(** With a flush after each text, everything is sent back if each text that is read
    begins with a starter and ends with an ender. *)
Theorem C110_flushed : forall nel lsps cr p sc sizes rs j rest, no_fail sc -> reads (new_input nel lsps) sc sizes = (rs, j, rest) ->
  Forall (fun r => starts_ok (snd r) /\ ends_ok (snd r)) rs ->
  exists d, echo true (new_duplexer nel lsps cr false (mksink p [] false) sc) sizes = (rs, None, d) /\ emitted (inner (dout d)) = p ++ as_sent cr (received rs).
Proof. exact echo_flush. Qed.
Print Assumptions C110_flushed.
Example C110_example_flushed : exists rs j rest, reads (new_input false false) ex110b [136; 136; 136]%nat = (rs, j, rest) /\ Forall (fun r => starts_ok (snd r) /\ ends_ok (snd r)) rs /\ received rs = [0x61; 0xA; 0x62; 0x301; 0xA; 0x63; 0xA].
Proof.
  do 3 eexists. split; [vm_compute; reflexivity|]. split; [|reflexivity].
  repeat (apply Forall_cons; [split; [apply starts_ok_iff|apply ends_ok_iff]; vm_compute; reflexivity|]). apply Forall_nil.
Qed.
(** And only then. *)
Theorem C110_flushed_exact : forall nel lsps cr p sc sizes rs j rest rs2 e d, no_fail sc -> reads (new_input nel lsps) sc sizes = (rs, j, rest) ->
  echo true (new_duplexer nel lsps cr false (mksink p [] false) sc) sizes = (rs2, e, d) ->
  e = None <-> Forall (fun r => starts_ok (snd r) /\ ends_ok (snd r)) rs.
Proof. exact echo_flush_exact. Qed.
Print Assumptions C110_flushed_exact.
(** Without this condition an echo with flushes can fail, although the peer sends Basic
    Text and no stream fails: a buffer can end before a combining character. *)
Theorem C110_flushed_refuted : exists t sizes rs e d, string_ok t /\ line_terminated t /\
  echo true (new_duplexer false false false false (mksink [] [] false) [Chunk t Active]) sizes = (rs, Some e, d).
Proof.
  exists (repeat 0x71 133 ++ [0x301; 0xA]), [136; 136]%nat. do 3 eexists. split; [apply basic_text_spec; vm_compute; reflexivity|].
  split; [right; exists (repeat 0x71 133 ++ [0x301]); reflexivity|]. vm_compute. reflexivity.
Qed.
Print Assumptions C110_flushed_refuted.

(** With colours allowed in what is written, an echo does the same: it reads the same,
    sends the same, fails in the same place, and closing it has the same effect. *)
Theorem C110_colour : forall fl nel lsps cr k sc sizes rs e d, echo fl (new_duplexer nel lsps cr true k sc) sizes = (rs, e, d) ->
  exists d', echo fl (new_duplexer nel lsps cr false k sc) sizes = (rs, e, d') /\ din d' = din d /\ dscript d' = dscript d /\ inner (dout d') = inner (dout d) /\
  fst (close (dout d')) = fst (close (dout d)) /\ inner (snd (close (dout d'))) = inner (snd (close (dout d))).
Proof. exact echo_colour. Qed.
Print Assumptions C110_colour.
(** the colours that the peer sends are not sent back *)
Example C110_example_colour : exists rs d, echo true (new_duplexer false false true true (mksink [] [] false) [Chunk [0x1B; 0x5B; 0x33; 0x31; 0x6D; 0x61; 0xA; 0x1B; 0x5B; 0x6D; 0x62] Active]) [136; 136]%nat = (rs, None, d) /\
  emitted (inner (dout d)) = [0x61; 0xD; 0xA; 0x62; 0xD; 0xA] /\ fst (close (dout d)) = None.
Proof. do 2 eexists. split; [vm_compute; reflexivity|]. split; vm_compute; reflexivity. Qed.
