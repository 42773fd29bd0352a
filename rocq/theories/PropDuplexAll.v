(** C101: reading all the text through a duplexer.  C97: vectored reads. *)
From Coq Require Import NArith Arith List Bool Lia.
From Verif Require Import Base Chars TextUtils SpecText Utf8 Utf8Facts Input Output SpecRead SpecCat SpecString StringProps Copy Duplex SpecDuplex StdIo StdBuf StdAdapt Sizes StdRead SpecWhole StdDuplex WholeProps DuplexAll.
Import ListNotations.
Local Open Scope N_scope.

(** ** C101 *)
(** After any reads and writes, read_to_end returns. *)
Theorem C101_total : forall nel lsps cr an k sc os rs x a b buf, do_dops (new_duplexer nel lsps cr an k sc) os = (rs, x) -> Forall (fun o => o <> DOut OpAbandon) os ->
  exists n r x', forall fuel, (n <= fuel)%nat -> duplex_to_end fuel a b x buf = Some (r, x').
Proof. exact duplex_all_total. Qed.
Print Assumptions C101_total.
(** It fails exactly if what is left of the stream does. *)
Theorem C101_fails : forall nel lsps cr an k sc os rs x fuel a b buf r x', do_dops (new_duplexer nel lsps cr an k sc) os = (rs, x) -> Forall (fun o => o <> DOut OpAbandon) os ->
  duplex_to_end fuel a b x buf = Some (r, x') -> (r = Broken <-> fails_early (dscript x)).
Proof. intros nel lsps cr an k sc os rs x fuel a b buf r x' H F T. exact (proj1 (duplex_all _ _ _ _ _ _ _ _ _ _ _ _ _ _ _ H F T)). Qed.
Print Assumptions C101_fails.
(** Otherwise it appends the rest of the text: with what was read before, it is the text
    that the stream gives.  The writing side is only told that a line end was read, if
    there was any text. *)
Theorem C101_whole : forall nel lsps cr an k sc os rs x fuel a b buf n bs x', do_dops (new_duplexer nel lsps cr an k sc) os = (rs, x) -> Forall (fun o => o <> DOut OpAbandon) os ->
  duplex_to_end fuel a b x buf = Some (Whole n bs, x') -> exists text, gives nel lsps sc (delivered (read_results rs) ++ text) /\ bs = buf ++ encode_all text /\ n = str_len text /\
    (text = [] -> dout x' = dout x) /\ (text <> [] -> dout x' = set_wst (dout x) (WGround Newline)).
Proof. intros nel lsps cr an k sc os rs x fuel a b buf n bs x' H F T. exact (proj2 (duplex_all _ _ _ _ _ _ _ _ _ _ _ _ _ _ _ H F T) _ _ eq_refl). Qed.
Print Assumptions C101_whole.
(** read_to_string on a new duplexer: the same as on a reader. *)
Theorem C101_string : forall nel lsps cr an k sc fuel a b s, 
  read_to_string fuel a b (new_reader nel lsps sc) s = option_map (fun x => (fst x, reader_of (snd x))) (duplex_to_string fuel a b (new_duplexer nel lsps cr an k sc) s).
Proof. intros. exact (to_end_reader fuel a b (new_duplexer nel lsps cr an k sc) (encode_all s)). Qed.
Print Assumptions C101_string.
(** "a" is written without a line end; the first line is read, then all the rest; then
    the duplexer can be closed. *)
Definition ex101 : list event := [Chunk [0x65; 0x301; 0xA] Push; Chunk [0x62; 0xA] Active; Chunk [0x63] End].
Example C101_example : exists rs x x', do_dops (new_duplexer false false false false (mksink [] [] false) ex101) [DRead 136; DOut (OpWriteStr [0x61])] = (rs, x) /\
  delivered (read_results rs) = [0xE9; 0xA] /\ wst (dout x) = WGround Other /\ duplex_to_end 9 0 0 x [0x2D] = Some (Whole 4 [0x2D; 0x62; 0xA; 0x63; 0xA], x') /\
  wst (dout x') = WGround Newline /\ fst (close (dout x)) = Some EWNoNewline /\ fst (close (dout x')) = None /\ emitted (inner (dout x')) = [0x61].
Proof. do 3 eexists. split; [vm_compute; reflexivity|]. split; [vm_compute; reflexivity|]. split; [vm_compute; reflexivity|]. split; [vm_compute; reflexivity|]. repeat split; vm_compute; reflexivity. Qed.

(** ** C97, vectored reads *)
(** A vectored read is a read into the first buffer that is not empty … *)
Theorem C97_vectored : forall t a n b, Forall (fun m => m = 0)%nat a -> (0 < n)%nat -> vectored_read t (a ++ n :: b) = std_read t n.
Proof. intros t a n b F N0. exact (vectored_first t _ a n b eq_refl F N0). Qed.
Print Assumptions C97_vectored.
(** … it is refused, and changes nothing, if that one is short or there is none … *)
Theorem C97_vectored_short : forall t lens, (forall a n b, lens = a ++ n :: b -> Forall (fun m => m = 0)%nat a -> (n < 136)%nat) -> vectored_read t lens = (BErr, t).
Proof. exact vectored_short. Qed.
Print Assumptions C97_vectored_short.
(** … however much room the others have. *)
Theorem C97_vectored_refuted : exists script t lens, no_fail script /\ gives false false script t /\ (str_len t + 136 <= fold_right Nat.add 0 lens)%nat /\ t <> [] /\
  vectored_read (new_reader false false script) lens = (BErr, new_reader false false script).
Proof.
  exists [Chunk [0x61] End], [0x61; 0xA], [16; 4096]%nat. split; [intros [H|[]]; discriminate|].
  split; [exists [136]%nat; do 3 eexists; split; [vm_compute; reflexivity|]; split; [eexists []; do 2 eexists; reflexivity|vm_compute; reflexivity]|].
  split; [vm_compute; lia|]. split; [discriminate|]. vm_compute. reflexivity.
Qed.
Print Assumptions C97_vectored_refuted.
Example C97_vectored_example : fst (vectored_read (new_reader false false [Chunk [0x61] End]) [0; 136; 4096]%nat) = BOk [0x61; 0xA].
Proof. vm_compute. reflexivity. Qed.
