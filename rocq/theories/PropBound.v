(** Theorems: how much longer text gets by conversion (C78). *)
From Coq Require Import NArith PeanoNat List Bool.
From Verif Require Import Base Ucd Norm Chars TextUtils SpecText PipelineFacts Utf8 SpecUtf8 Input SpecRead Strings SpecString Output SpecBound BoundTables BoundWrite Utf8Lossy.
Import ListNotations.
Local Open Scope N_scope.

(** ** C78 *)
(** Whatever the stream does and however it is read, the text delivered is at most
    four times as long as the text taken from the stream, and one byte. *)
Theorem C78_reader_bound : forall nel lsps script sizes rs j rest, reads (new_input nel lsps) script sizes = (rs, j, rest) ->
  (str_len (delivered rs) + 4 * str_len (stream_text rest) <= 4 * str_len (stream_text script) + 1)%nat.
Proof. exact reads_bound. Qed.
Print Assumptions C78_reader_bound.
(** … also when the text came from bytes that are not all well-formed. *)
Theorem C78_bytes_bound : forall nel lsps script sizes rs j rest bytes, reads (new_input nel lsps) script sizes = (rs, j, rest) ->
  lossy_decoding bytes (stream_text script) -> (str_len (delivered rs) <= 4 * length bytes + 1)%nat.
Proof. exact bytes_bound. Qed.
Print Assumptions C78_bytes_bound.
(** The lossy conversion of a string (a byte order mark kept as U+2060 may add
    three bytes). *)
Theorem C78_lossy_bound : forall v t, lossy v (Some t) -> (str_len t <= 4 * str_len v + 4)%nat.
Proof. exact lossy_bound. Qed.
Print Assumptions C78_lossy_bound.
(** A writer, whatever it is asked to do and whatever the stream below answers,
    passes on at most four times the bytes it is given; so do the strict
    conversions of strings. *)
Theorem C78_writer_bound : forall cr an k ops rs w, do_ops (new_writer cr an k) ops = (rs, w) ->
  (str_len (emitted (inner w)) <= str_len (emitted k) + 4 * list_sum (map given ops))%nat.
Proof. exact writer_bound. Qed.
Print Assumptions C78_writer_bound.
Theorem C78_strict_bound : forall check s t, string_from_text check s = TOk t -> (str_len t <= 4 * str_len s)%nat.
Proof. exact from_text_bound. Qed.
Print Assumptions C78_strict_bound.
(** Two pushed messages of three bytes become eleven bytes each, and a line feed;
    a malformed byte becomes three; a stream given up half-way. *)
Example C78_example :
  (let '(rs, j, rest) := reads (new_input false false) [Chunk [0xF77] Push; Chunk [0xF77] End] [136; 136; 136; 136]%nat in
   delivered rs = [0x34F; 0xFB2; 0xF71; 0xF80; 0x34F; 0xFB2; 0xF71; 0xF80; 0xA] /\ rest = [] /\ str_len (delivered rs) = 23%nat) /\
  lossy_decoding [0xFF; 0x61] [0xFFFD; 0x61] /\
  (let '(rs, j, rest) := reads (new_input false false) [Chunk [0xFFFD; 0x61] Active] [136; 136; 136]%nat in delivered rs = [0xFFFD; 0x61; 0xA]) /\
  (let '(rs, j, rest) := reads (new_input false false) [Chunk [0x1F71; 0x7; 0xA; 0x62] Active; Chunk [0x1] Active] [136]%nat in delivered rs = [0x3AC; 0xFFFD; 0xA] /\ rest = [Chunk [0x1] Active]).
Proof. split; [vm_compute; auto|]. split; [|split; vm_compute; auto]. apply utf8_lossy_exact. reflexivity. Qed.
Example C78_writer_example :
  emitted (inner (snd (do_ops (new_writer true true (mksink [] [WOk; WErr 1] false)) [OpWriteStr [0x387; 0xA; 0x378]; OpFlush; OpWriteStr [0x61; 0x62]]))) = [0xB7; 0xD; 0xA; 0x34F; 0x378; 0x34F; 0x61; 0x62] /\
  string_from_text is_basic_text [0x61; 0xF73; 0x378] = TOk [0x61; 0xF71; 0xF72; 0x34F; 0x378; 0x34F].
Proof. vm_compute. auto. Qed.
(** Three times is not enough. *)
Theorem C78_three_refuted : exists script sizes rs j rest, reads (new_input false false) script sizes = (rs, j, rest) /\
  (3 * str_len (stream_text script) + 1 < str_len (delivered rs))%nat.
Proof. exists [Chunk [0xF77] Push; Chunk [0xF77] End], [136; 136; 136; 136]%nat. do 3 eexists. split; [vm_compute; reflexivity|]. apply Nat.ltb_lt. vm_compute. reflexivity. Qed.
Print Assumptions C78_three_refuted.
