(** A conversation with a BufReader over a TextDuplexer: C111. *)
From Coq Require Import NArith List Bool.
From Verif Require Import Base Chars TextUtils Utf8 Input Output SpecText TextFacts SpecRead SpecCat SpecWrite StdBuf Duplex SpecDuplex DuplexProps DuplexBuf SpecDuplexBuf DuplexBufProps BufAccount.
Import ListNotations.
Local Open Scope N_scope.

(** ** C111 *)
(** The lines that are read through the BufReader are the lines of the text that the
    stream gives, in order, and an empty one at the end, whatever is written in between
    and whatever becomes of it. *)
Theorem C111_lines : forall nel lsps cr an k script cap ps os, (136 <= cap)%nat -> no_fail script -> Forall (fun p => ~ In 0xA p) ps -> gives nel lsps script (concat (map (fun p => p ++ [0xA]) ps)) ->
  Forall (fun o => o <> BOut OpAbandon) os -> (asked os <= S (length ps))%nat ->
  exists n, forall fuel, (n <= fuel)%nat -> exists rs b, btalk fuel (new_dbuf (new_duplexer nel lsps cr an k script) cap) os = Some (rs, b) /\
    got rs = firstn (asked os) (map (fun p => (encode_all p ++ [0xA], true)) ps ++ [([], true)]).
Proof. exact conversation_lines. Qed.
Print Assumptions C111_lines.
(** "a" and "é" in one read, "b" in the next; two answers, of which the second is refused *)
Definition ex111 : list event := [Chunk [0x61; 0xA; 0x65; 0x301; 0xD; 0xA] Active; Chunk [0x62] Active].
Definition ex111_ops : list bop := [BLine; BOut (OpWriteStr [0x78; 0xA]); BLine; BOut (OpWriteStr [0x7]); BLine; BLine].
Example C111_example_lines : no_fail ex111 /\ gives false false ex111 (concat (map (fun p => p ++ [0xA]) [[0x61]; [0xE9]; [0x62]])) /\
  Forall (fun o => o <> BOut OpAbandon) ex111_ops /\ asked ex111_ops = 4%nat /\
  exists rs b, btalk 9 (new_dbuf (new_duplexer false false true false (mksink [] [] false) ex111) 136) ex111_ops = Some (rs, b) /\
    got rs = [([0x61; 0xA], true); ([0xC3; 0xA9; 0xA], true); ([0x62; 0xA], true); ([], true)] /\ exists e, wrote rs = [DWrote None; DWrote (Some e)].
Proof.
  split; [intros [K|[K|[]]]; discriminate|]. split.
  { exists [136; 136; 136]%nat. do 3 eexists. split; [vm_compute; reflexivity|]. split; [eexists [_; _]; do 2 eexists; reflexivity|vm_compute; reflexivity]. }
  split; [repeat (apply Forall_cons; [discriminate|]); apply Forall_nil|]. split; [reflexivity|]. do 2 eexists. split; [vm_compute; reflexivity|]. split; [reflexivity|]. now eexists.
Qed.

(** Also if the stream fails, what is read through the BufReader, and where reading
    fails, is the same as for a BufReader over a TextReader (C95), without the writes. *)
Theorem C111_reads : forall nel lsps cr an k script cap fuel os, Forall (fun o => o <> BOut OpAbandon) os ->
  match btalk fuel (new_dbuf (new_duplexer nel lsps cr an k script) cap) os with
  | Some (rs, b) => buf_each fuel (new_bufreader nel lsps script cap) (asked os) = Some (got rs, mkbuf (din (dover b)) (dscript (dover b)) (dcap b) (dunread b))
  | None => buf_each fuel (new_bufreader nel lsps script cap) (asked os) = None
  end.
Proof. exact conversation_reads. Qed.
Print Assumptions C111_reads.
Example C111_example_reads : exists rs b, btalk 9 (new_dbuf (new_duplexer false false false false (mksink [] [WErr 0] false) [Chunk [0x61; 0xA; 0x62] Active; Fail; Chunk [0x63; 0xA] Active]) 136)
  [BLine; BOut (OpWriteStr [0x78; 0xA]); BLine; BLine] = Some (rs, b) /\ got rs = [([0x61; 0xA], true); ([], false); ([0x62; 0x63; 0xA], true)].
Proof. do 2 eexists. split; [vm_compute; reflexivity|]. vm_compute. reflexivity. Qed.

(** No byte is lost or made up: the reads that were made gave the lines, also the parts of
    lines before failures, and what the BufReader still holds.  So [into_inner] loses
    exactly the latter, and the duplexer goes on after it. *)
Theorem C111_into_inner : forall nel lsps cr an k script cap fuel os rs b, (136 <= cap)%nat -> Forall (fun o => o <> BOut OpAbandon) os ->
  btalk fuel (new_dbuf (new_duplexer nel lsps cr an k script) cap) os = Some (rs, b) ->
  exists n xs, reads (new_input nel lsps) script (repeat cap n) = (xs, din (dover b), dscript (dover b)) /\ encode_all (received xs) = concat (map fst (got rs)) ++ dunread b.
Proof. exact conversation_account. Qed.
Print Assumptions C111_into_inner.
Definition ex111_fails : list event := [Chunk [0x61; 0xA] Push; Fail; Chunk [0xE9; 0xA; 0x63; 0xA] Active].
Example C111_example_into_inner : exists rs b, btalk 9 (new_dbuf (new_duplexer false false true false (mksink [] [] false) ex111_fails) 136)
  [BLine; BOut (OpWriteStr [0x78; 0xA]); BLine; BLine] = Some (rs, b) /\ got rs = [([0x61; 0xA], true); ([], false); ([0xC3; 0xA9; 0xA], true)] /\ dunread b = [0x63; 0xA].
Proof. do 2 eexists. split; [vm_compute; reflexivity|]. split; vm_compute; reflexivity. Qed.
(** The same for a BufReader over a TextReader. *)
Theorem C95_into_inner : forall nel lsps script cap fuel n ls b, (136 <= cap)%nat -> buf_each fuel (new_bufreader nel lsps script cap) n = Some (ls, b) ->
  exists k xs, reads (new_input nel lsps) script (repeat cap k) = (xs, under b, stream b) /\ encode_all (received xs) = concat (map fst ls) ++ unread b.
Proof. exact buffered_account. Qed.
Print Assumptions C95_into_inner.
Example C95_example_into_inner : exists ls b, buf_each 9 (new_bufreader false false ex111_fails 136) 3 = Some (ls, b) /\ ls = [([0x61; 0xA], true); ([], false); ([0xC3; 0xA9; 0xA], true)] /\ unread b = [0x63; 0xA].
Proof. do 2 eexists. split; [vm_compute; reflexivity|]. split; vm_compute; reflexivity. Qed.

(** For the writing side, a conversation is a history of the duplexer with the same
    writes and the same results; the reads come where the BufReader needs bytes.  So
    what is known about histories of duplexers (C51, C52 and others) holds of it. *)
Theorem C111_history : forall fuel os b rs b', btalk fuel b os = Some (rs, b') ->
  exists ds rs', do_dops (dover b) ds = (rs', dover b') /\ outs ds = bouts os /\ Forall (fun o => forall c, o = DRead c -> c = dcap b) ds /\ writes rs' = wrote rs.
Proof. exact talk_history. Qed.
Print Assumptions C111_history.
(** If complete lines are written and closing succeeds, they were all sent, one after the
    other, and are one valid text. *)
Theorem C111_written : forall nel lsps cr p o script cap fuel os rs b w, btalk fuel (new_dbuf (new_duplexer nel lsps cr false (mksink p o false) script) cap) os = Some (rs, b) ->
  Forall plain_bop os -> Forall line_op (bouts os) -> close (dout (dover b)) = (None, w) ->
  string_ok (btext os) /\ line_terminated (btext os) /\ emitted (inner w) = p ++ as_sent cr (btext os).
Proof. exact conversation_written. Qed.
Print Assumptions C111_written.
Definition ex111_lines : list bop := [BOut (OpWriteText [0x78; 0xA]); BLine; BOut (OpWriteText [0x79; 0x316; 0xA]); BLine].
Example C111_example_written : Forall plain_bop ex111_lines /\ Forall line_op (bouts ex111_lines) /\
  exists rs b w, btalk 9 (new_dbuf (new_duplexer false false true false (mksink [] [] false) ex111) 136) ex111_lines = Some (rs, b) /\ close (dout (dover b)) = (None, w) /\
    emitted (inner w) = [0x78; 0xD; 0xA; 0x79; 0x316; 0xD; 0xA].
Proof.
  split; [repeat (apply Forall_cons; [cbn; repeat split; discriminate|]); apply Forall_nil|]. split; [apply Forall_cons; [intros _; now exists [0x78]|apply Forall_cons; [intros _; now exists [0x79; 0x316]|apply Forall_nil]]|].
  do 3 eexists. split; [vm_compute; reflexivity|]. split; vm_compute; reflexivity.
Qed.

(** After prompts of any form, closing succeeds if no write failed, the last line was not
    in the BufReader already when it was asked for, and what the BufReader holds after it is
    nothing, or complete lines. *)
Theorem C111_close : forall nel lsps cr p script cap fuel os rs b1 l b2, btalk fuel (new_dbuf (new_duplexer nel lsps cr false (mksink p [] false) script) cap) os = Some (rs, b1) ->
  Forall plain_bop os -> Forall (fun r => match r with DWrote (Some _) => False | _ => True end) (wrote rs) ->
  ~ In 0xA (dunread b1) -> dbuf_until fuel b1 = Some (l ++ [0xA], true, b2) -> dunread b2 = [] \/ (exists m, dunread b2 = m ++ [0xA]) ->
  exists w, close (dout (dover b2)) = (None, w) /\ emitted (inner w) = p ++ as_sent cr (btext os).
Proof. exact conversation_close. Qed.
Print Assumptions C111_close.
Definition ex111_ask : list bop := [BOut (OpWriteStr [0x3F]); BLine; BOut (OpWriteStr [0x3F])].
(** A long line, "bbbbc" and "d": after the first, the BufReader holds "bbb" and then gets
    the rest with the whole third line. *)
Definition ex111_long : list event := [Chunk (repeat 0x61 129 ++ [0xA; 0x62; 0x62; 0x62; 0x62; 0x63; 0xA; 0x64; 0xA]) Active].
Example C111_example_close : Forall plain_bop ex111_ask /\ (exists rs b1 b2,
  btalk 9 (new_dbuf (new_duplexer false false false false (mksink [] [] false) [Chunk [0x61; 0xA] Active; Chunk [0x62; 0xA] Active]) 136) ex111_ask = Some (rs, b1) /\
  wrote rs = [DWrote None; DWrote None] /\ dunread b1 = [] /\ dbuf_until 9 b1 = Some ([0x62] ++ [0xA], true, b2) /\ dunread b2 = []) /\
  exists rs b1 b2 l, btalk 9 (new_dbuf (new_duplexer false false false false (mksink [] [] false) ex111_long) 136) ex111_ask = Some (rs, b1) /\
  wrote rs = [DWrote None; DWrote None] /\ dunread b1 <> [] /\ ~ In 0xA (dunread b1) /\ dbuf_until 9 b1 = Some (l ++ [0xA], true, b2) /\ dunread b2 = [0x64] ++ [0xA].
Proof.
  split; [repeat (apply Forall_cons; [cbn; repeat split; discriminate|]); apply Forall_nil|]. split.
  - do 3 eexists. split; [vm_compute; reflexivity|]. split; [reflexivity|]. split; [reflexivity|]. split; [vm_compute; reflexivity|reflexivity].
  - do 3 eexists. exists [0x62; 0x62; 0x62; 0x62; 0x63]. split; [vm_compute; reflexivity|]. split; [reflexivity|]. split; [discriminate|]. split; [cbn; intuition discriminate|].
    split; [vm_compute; reflexivity|reflexivity].
Qed.
(** With prompts that have no line end, whether closing succeeds depends on how the
    peer's lines arrive: reading a line makes up for the missing line end only if the
    BufReader does not have the line already. *)
Definition ask : list bop := [BOut (OpWriteStr [0x3F]); BLine; BOut (OpWriteStr [0x3F]); BLine].
Theorem C111_prompts_refuted : exists sc1 sc2 rs b1 b2 w1 e w2, stream_text sc1 = stream_text sc2 /\
  btalk 9 (new_dbuf (new_duplexer false false false false (mksink [] [] false) sc1) 136) ask = Some (rs, b1) /\ close (dout (dover b1)) = (None, w1) /\
  btalk 9 (new_dbuf (new_duplexer false false false false (mksink [] [] false) sc2) 136) ask = Some (rs, b2) /\ close (dout (dover b2)) = (Some e, w2).
Proof.
  exists [Chunk [0x61; 0xA] Active; Chunk [0x62; 0xA] Active], [Chunk [0x61; 0xA; 0x62; 0xA] Active]. do 6 eexists. split; [reflexivity|].
  split; [vm_compute; reflexivity|]. split; [vm_compute; reflexivity|]. split; vm_compute; reflexivity.
Qed.
Print Assumptions C111_prompts_refuted.
