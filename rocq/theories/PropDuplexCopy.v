(** C102: copying from one duplexer to another. *)
From Coq Require Import NArith Arith List Bool.
From Verif Require Import Base Chars TextUtils SpecText TextFacts Utf8 Input Output SpecRead SpecCat SpecWrite SpecString StringProps CopyProps Copy Duplex SpecDuplex SpecStatus DuplexCopy SpecDuplexCopy CopyDuplex.
Import ListNotations.
Local Open Scope N_scope.

(** ** C102 *)
(** [a] and [b] are duplexers after any reads and writes.  copy_text from [a] to [b]
    always ends.  [text] is what is left of the text that [a]'s stream gives.  If [b]
    accepts that text, or there is none, everything is copied and [b] can be closed; if
    not, the copy fails and sends nothing.  What [b] has to read, and what [a] has
    written, are left alone, but [a] is then at the start of a line. *)
Theorem C102_copied : forall nel lsps crA anA kA scA osA rsA a nelB lspsB cr p scB osB rsB b blen,
  do_dops (new_duplexer nel lsps crA anA kA scA) osA = (rsA, a) -> Forall (fun o => o <> DOut OpAbandon) osA ->
  do_dops (new_duplexer nelB lspsB cr false (mksink p [] false) scB) osB = (rsB, b) -> Forall plain_dop osB ->
  no_fail (dscript a) -> (136 <= blen)%nat ->
  exists text, gives nel lsps scA (delivered (read_results rsA) ++ text) /\ exists n, forall fuel, (n <= fuel)%nat -> exists res a' b',
    duplex_copy false fuel a b blen 0 = Some (res, a', b') /\ din b' = din b /\ dscript b' = dscript b /\ touched (dout a) (dout a') /\
    let d := spec_sides cr (new_doc p []) osB rsB in
    (text = [] \/ accepts d text -> res = CopyOk (str_len text) /\ emitted (inner (dout b')) = emitted (inner (dout b)) ++ as_sent cr text /\
       (text = [] -> dout b' = dout b /\ dout a' = dout a) /\
       (text <> [] -> dout a' = set_wst (dout a) (WGround Newline) /\ exists w, close (dout b') = (None, w) /\ emitted (inner w) = emitted (inner (dout b')))) /\
    (text <> [] -> ~ accepts d text -> exists e, res = CopyWrite e /\ emitted (inner (dout b')) = emitted (inner (dout b))).
Proof. exact duplex_copied. Qed.
Print Assumptions C102_copied.
(** copy_text_using_status: also at each push the text just read must end well and the
    next text begin well. *)
Theorem C102_using_status : forall nel lsps crA anA kA scA osA rsA a nelB lspsB cr p scB osB rsB b blen,
  do_dops (new_duplexer nel lsps crA anA kA scA) osA = (rsA, a) -> Forall (fun o => o <> DOut OpAbandon) osA ->
  do_dops (new_duplexer nelB lspsB cr false (mksink p [] false) scB) osB = (rsB, b) -> Forall plain_dop osB ->
  no_fail (dscript a) -> (136 <= blen)%nat ->
  exists k rs j rest, reads (din a) (dscript a) (repeat blen k) = (rs, j, rest) /\ reached_end rs /\ gives nel lsps scA (delivered (read_results rsA) ++ delivered rs) /\
  exists n, forall fuel, (n <= fuel)%nat -> exists res a' b',
    duplex_copy_status fuel a b blen 0 = Some (res, a', b') /\ din b' = din b /\ dscript b' = dscript b /\ touched (dout a) (dout a') /\
    let d := spec_sides cr (new_doc p []) osB rsB in
    (ready d rs -> res = CopyOk (str_len (delivered rs)) /\ emitted (inner (dout b')) = emitted (inner (dout b)) ++ as_sent cr (delivered rs) /\
       exists w, close (dout b') = (None, w) /\ emitted (inner w) = emitted (inner (dout b'))) /\
    (~ ready d rs -> exists e, res = CopyWrite e).
Proof. exact duplex_copied_status. Qed.
Print Assumptions C102_using_status.
(** Whatever fails, on either stream: what [b] sends is a beginning of the text read from
    [a], all of it if the copy succeeds or ends with a failed read. *)
Theorem C102_any : forall intr nel lsps crA anA kA scA osA rsA a nelB lspsB cr p o scB osB rsB b blen fuel res a' b',
  do_dops (new_duplexer nel lsps crA anA kA scA) osA = (rsA, a) -> Forall (fun o => o <> DOut OpAbandon) osA ->
  do_dops (new_duplexer nelB lspsB cr false (mksink p o false) scB) osB = (rsB, b) -> Forall plain_dop osB ->
  duplex_copy intr fuel a b blen 0 = Some (res, a', b') ->
  din b' = din b /\ dscript b' = dscript b /\ touched (dout a) (dout a') /\
  exists k rs, reads (din a) (dscript a) (repeat blen k) = (rs, din a', dscript a') /\ prefix_of (emitted (inner (dout b'))) (emitted (inner (dout b)) ++ as_sent cr (received rs)) /\
    match res with
    | CopyOk n => reached_end rs /\ n = str_len (received rs) /\ emitted (inner (dout b')) = emitted (inner (dout b)) ++ as_sent cr (received rs)
    | CopyRead => emitted (inner (dout b')) = emitted (inner (dout b)) ++ as_sent cr (received rs)
    | CopyWrite _ => True
    end.
Proof. exact duplex_copy_any. Qed.
Print Assumptions C102_any.
(** The same with statuses. *)
Theorem C102_status_any : forall nel lsps crA anA kA scA osA rsA a nelB lspsB cr p o scB osB rsB b blen fuel res a' b',
  do_dops (new_duplexer nel lsps crA anA kA scA) osA = (rsA, a) -> Forall (fun o => o <> DOut OpAbandon) osA ->
  do_dops (new_duplexer nelB lspsB cr false (mksink p o false) scB) osB = (rsB, b) -> Forall plain_dop osB ->
  duplex_copy_status fuel a b blen 0 = Some (res, a', b') ->
  din b' = din b /\ dscript b' = dscript b /\ touched (dout a) (dout a') /\
  exists k rs, reads (din a) (dscript a) (repeat blen k) = (rs, din a', dscript a') /\ prefix_of (emitted (inner (dout b'))) (emitted (inner (dout b)) ++ as_sent cr (received rs)) /\
    match res with
    | CopyOk n => reached_end rs /\ n = str_len (received rs) /\ emitted (inner (dout b')) = emitted (inner (dout b)) ++ as_sent cr (received rs)
    | CopyRead => emitted (inner (dout b')) = emitted (inner (dout b)) ++ as_sent cr (received rs)
    | CopyWrite _ => True
    end.
Proof. exact duplex_status_any. Qed.
Print Assumptions C102_status_any.
(** The stream below [b] takes one character of the second text and fails: *)
Example C102_status_any_example : exists a' b', duplex_copy_status 9 (new_duplexer false false false false (mksink [] [] false) [Chunk [0x61; 0xA] Push; Chunk [0x62; 0xA] End])
    (new_duplexer false false false false (mksink [] [WOk; WOk; WErr 1] false) []) 136 0 = Some (CopyWrite EWInner, a', b') /\ emitted (inner (dout b')) = [0x61; 0xA; 0x62].
Proof. do 2 eexists. split; [vm_compute; reflexivity|vm_compute; reflexivity]. Qed.
(** A line has been read from [a], which has an unfinished line of its own; [b] has sent
    ">" and has "z" to read.  The rest is copied; both can then be closed, and "z" is
    still there. *)
Definition ex102 : list event := [Chunk [0x65; 0x301; 0xA] Push; Chunk [0x62; 0xA] Active; Chunk [0x63] End].
Definition ex102_a : duplexer := snd (do_dops (new_duplexer false false false false (mksink [] [] false) ex102) [DRead 136; DOut (OpWriteStr [0x61])]).
Definition ex102_b : duplexer := snd (do_dops (new_duplexer false false true false (mksink [] [] false) [Chunk [0x7A] End]) [DOut (OpWriteStr [0x3E])]).
Example C102_example : exists a' b', duplex_copy false 9 ex102_a ex102_b 136 0 = Some (CopyOk 4, a', b') /\ emitted (inner (dout b')) = [0x3E; 0x62; 0xD; 0xA; 0x63; 0xD; 0xA] /\
  dscript b' = [Chunk [0x7A] End] /\ emitted (inner (dout a')) = [0x61] /\ fst (close (dout ex102_a)) = Some EWNoNewline /\ fst (close (dout a')) = None /\ fst (close (dout b')) = None.
Proof. do 2 eexists. split; [vm_compute; reflexivity|]. do 5 (split; [vm_compute; reflexivity|]). vm_compute; reflexivity. Qed.

(** The text read before may end anywhere, so that the rest does not begin with a starter,
    and a new duplexer refuses it. *)
Definition ex102_long : list event := [Chunk (repeat 0x78 133 ++ [0x316; 0xA]) End].
Theorem C102_copied_refuted : exists sc rs a b e a' b' t, do_dops (new_duplexer false false false false (mksink [] [] false) sc) [DRead 136] = (rs, a) /\
  stream_text sc = t /\ string_ok t /\ line_terminated t /\ no_fail sc /\ b = new_duplexer false false false false (mksink [] [] false) [] /\
  duplex_copy false 9 a b 136 0 = Some (CopyWrite e, a', b').
Proof.
  exists ex102_long. do 7 eexists. split; [vm_compute; reflexivity|]. split; [reflexivity|]. split; [apply basic_text_spec; vm_compute; reflexivity|].
  split; [right; now exists (repeat 0x78 133 ++ [0x316])|]. split; [intros [H|[]]; discriminate|]. split; [reflexivity|]. vm_compute. reflexivity.
Qed.
Print Assumptions C102_copied_refuted.
(** copy_text_using_status writes even when nothing is left, and the receiving duplexer
    then forgets that its line is not finished. *)
Theorem C102_status_line_refuted : exists rs b a' b', do_dops (new_duplexer false false false false (mksink [] [] false) []) [DOut (OpWriteStr [0x3E])] = (rs, b) /\
  fst (close (dout b)) = Some EWNoNewline /\
  duplex_copy_status 9 (new_duplexer false false false false (mksink [] [] false) [Chunk [] End]) b 136 0 = Some (CopyOk 0, a', b') /\
  emitted (inner (dout b')) = [0x3E] /\ fst (close (dout b')) = None.
Proof. do 4 eexists. do 4 (split; [vm_compute; reflexivity|]). vm_compute. reflexivity. Qed.
Print Assumptions C102_status_line_refuted.
(** The cases of C102_copied and C102_using_status. *)
Example C102_accepts : accepts (spec_sides true (new_doc [] []) [DOut (OpWriteStr [0x3E])] [DWrote None]) [0x316; 0xA] /\ ~ accepts (new_doc [] []) [0x316; 0xA] /\
  ready (new_doc [] []) [(ROk 2 Push, [0x62; 0xA]); (ROk 2 End, [0x63; 0xA])].
Proof.
  split; [split; [vm_compute; reflexivity|intro K; vm_compute in K; discriminate]|]. split; [intros [_ H]; specialize (H eq_refl 0x316 [0xA] eq_refl); vm_compute in H; discriminate|].
  split; [reflexivity|]. split; [intros _ r cs t E; injection E as _ <- _; intros c u E; injection E as <- _; reflexivity|].
  intros a n cs b E. destruct a as [|x [|y a]]; [|discriminate|destruct a; discriminate]. injection E as _ <- <-. split.
  - apply ends_ok_iff. vm_compute. reflexivity.
  - intros r cs t E. injection E as _ <- _. intros c u E. injection E as <- _. reflexivity.
Qed.
