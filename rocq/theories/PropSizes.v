(** The buffers that readers ask for: C87. *)
From Coq Require Import NArith List Bool Lia.
From Verif Require Import Base Ucd Norm Chars TextUtils Utf8 Input Output ReadSession SpecText SpecRead SpecWrite Duplex Copy CopyProps Sizes SizeProps.
Import ListNotations.
Local Open Scope N_scope.

(** ** C87 *)
(** A read is refused for its buffer exactly if that is shorter than 136 bytes, and
    then nothing happens; so one of the minimum size, or longer, is never refused. *)
Theorem C87_refused : forall i script blen,
  (fst (fst (fst (read i script blen))) = RInvalid <-> (blen < 136)%nat) /\ ((blen < 136)%nat -> read i script blen = (RInvalid, [], i, script)).
Proof. intros i script blen. split; [apply refused_iff|apply refused_nothing]. Qed.
Print Assumptions C87_refused.
Theorem C87_minimum : forall i script m blen, (minimum_buffer_size m <= blen)%nat -> fst (fst (fst (read i script blen))) <> RInvalid.
Proof. exact minimum_accepted. Qed.
Print Assumptions C87_minimum.
(** What is suggested is as much as the reader and the stream below need, for
    readers and duplexers; so copying uses a buffer that is not refused, whatever the
    writer suggests. *)
Theorem C87_suggested : forall m s ws, (136 <= copy_buffer (reader_suggested m s) (writer_suggested ws))%nat /\
  (136 <= duplexer_suggested m s)%nat /\ (m <= reader_suggested m s)%nat /\ (s <= reader_suggested m s)%nat /\
  (reader_suggested m s <= copy_buffer (reader_suggested m s) (writer_suggested ws))%nat /\ (ws <= copy_buffer (reader_suggested m s) (writer_suggested ws))%nat /\
  (m <= duplexer_suggested m s)%nat /\ (s <= duplexer_suggested m s)%nat.
Proof. exact copy_buffer_accepted. Qed.
Print Assumptions C87_suggested.
Theorem C87_copied : forall nel lsps sc m s ws cr p, no_fail sc ->
  let blen := copy_buffer (reader_suggested m s) (writer_suggested ws) in
  exists n, forall fuel, (n <= fuel)%nat -> exists k rs j rest w,
    reads (new_input nel lsps) sc (repeat blen k) = (rs, j, rest) /\ reached_end rs /\
    copy_text false fuel (new_input nel lsps) sc (new_writer cr false (mksink p [] false)) blen 0 = Some (CopyOk (str_len (received rs)), j, rest, w) /\
    emitted (inner w) = p ++ as_sent cr (received rs) /\ exists w', close w = (None, w') /\ emitted (inner w') = emitted (inner w).
Proof. intros nel lsps sc m s ws cr p NF blen. apply copy_text_copies; [exact NF|apply copy_buffer_accepted]. Qed.
Print Assumptions C87_copied.
(** Readers over readers: each gives the one below a buffer of 4096 bytes, which is
    enough exactly if it is for the stream at the bottom. *)
Theorem C87_tower : forall n m, (tower n m <= below)%nat <-> (m <= 4096)%nat.
Proof. exact tower_fits. Qed.
Print Assumptions C87_tower.
Example C87_example : copy_buffer (reader_suggested 4 100) (writer_suggested 0) = 136%nat /\ tower 3 4 = 136%nat /\
  fst (fst (fst (read (new_input false false) [Chunk [0x61; 0xA] End] 136))) = ROk 2 End /\ fst (fst (fst (read (new_input false false) [Chunk [0x61; 0xA] End] 135))) = RInvalid.
Proof. split; [reflexivity|]. split; [reflexivity|]. split; vm_compute; reflexivity. Qed.
