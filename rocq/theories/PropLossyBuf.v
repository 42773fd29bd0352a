(** C95: the lossy lines of a BufReader over a TextReader. *)
From Coq Require Import NArith Arith List Bool Lia.
From Verif Require Import Base Utf8 Input SpecText SpecRead SpecCat SpecString SpecLine Strings Lines LineIo StdBuf SpecBuf StdLines SpecLossyBuf LossyBuf.
Import ListNotations.
Local Open Scope N_scope.

(** The lossy lines of a BufReader are the lossy lines of the text; none panics.  [conv] is
    the lossy conversion of strings ([lossy] in SpecString.v). *)
Theorem C95_lossy_lines : forall debug conv, (forall v, lossy v (conv v)) -> forall nel lsps script cap t, (136 <= cap)%nat -> no_fail script -> gives nel lsps script t ->
  exists n its, text_lines_lossy debug conv (encode_all t) = Some its /\ forall m fuel, (n <= m)%nat -> (n <= fuel)%nat -> buf_text_lines_lossy m fuel debug conv (new_bufreader nel lsps script cap) = Some its.
Proof. exact lossy_buffered. Qed.
Print Assumptions C95_lossy_lines.
(** One for each line of the text, and none is an error: the lossy conversion of the line,
    with U+34F added after a non-ender.  It is a valid string. *)
Theorem C95_lossy_each_line : forall debug conv nel lsps script cap t, (forall v, lossy v (conv v)) -> (136 <= cap)%nat -> no_fail script -> scalar_stream script -> gives nel lsps script t ->
  exists n vs ls, t = concat (map (fun v => v ++ [0xA]) vs) /\ Forall (fun v => ~ In 0xA v) vs /\
  Forall2 (fun v l => string_ok l /\ exists u, lossy (v ++ [0xA]) (Some (u ++ [0xA])) /\ (l = u \/ (~ ends_ok u /\ l = u ++ [0x34F]))) vs ls /\
  forall m fuel, (n <= m)%nat -> (n <= fuel)%nat -> buf_text_lines_lossy m fuel debug conv (new_bufreader nel lsps script cap) = Some (map Line ls).
Proof. exact lossy_buffered_each. Qed.
Print Assumptions C95_lossy_each_line.
(** If reads fail, the lossy lines up to each failure and an error for it are given; a line
    that a failure cuts is left out. *)
Theorem C95_lossy_lines_any : forall debug conv, (forall v, lossy v (conv v)) -> forall nel lsps script cap, (136 <= cap)%nat ->
  exists k xs j rest n its, reads (new_input nel lsps) script (repeat cap k) = (xs, j, rest) /\ reached_end xs /\
  (exists ls last, Forall2 (lossy_items_for debug conv) (segments xs) (ls ++ [last]) /\ its = concat (map (fun l => l ++ [LineErr]) ls) ++ last) /\
  forall m fuel, (n <= m)%nat -> (n <= fuel)%nat -> buf_text_lines_lossy m fuel debug conv (new_bufreader nel lsps script cap) = Some its.
Proof. exact lossy_buffered_any. Qed.
Print Assumptions C95_lossy_lines_any.
(** There is a conversion as these theorems, and those of C50 and C85, suppose. *)
Theorem C50_conversion : exists conv, forall v, lossy v (conv v).
Proof. exact conversion_exists. Qed.
Print Assumptions C50_conversion.

(** the conversion when the bytes arrive at once *)
Definition at_once (v : list N) : option (list N) :=
  let '(rs, _, _) := reads (new_input false false) [Chunk v End] (repeat 136%nat 8) in lossy_result v (received rs).
(** "a" ZWJ LF U+301 "b": text_lines has errors for both lines, text_lines_lossy has not. *)
Definition ex95 : list event := [Chunk [0x61; 0x200D; 0xA; 0x301; 0x62] End].
Example C95_example_lossy : no_fail ex95 /\ scalar_stream ex95 /\ gives false false ex95 [0x61; 0x200D; 0xA; 0x301; 0x62; 0xA] /\
  buf_text_lines_lossy 9 9 true at_once (new_bufreader false false ex95 136) = Some [Line [0x61; 0x200D; 0x34F]; Line [0x34F; 0x301; 0x62]] /\
  buf_text_lines 9 9 true (new_bufreader false false ex95 136) = Some [LineErr; LineErr].
Proof.
  split; [intros [K|[]]; discriminate|]. split; [intros cs s [K|[]]; injection K as <- <-; repeat constructor|]. split.
  - exists [136; 136; 136]%nat. do 3 eexists. split; [vm_compute; reflexivity|]. split; [first [eexists []; do 2 eexists; reflexivity|eexists [_]; do 2 eexists; reflexivity|eexists [_; _]; do 2 eexists; reflexivity]|vm_compute; reflexivity].
  - split; vm_compute; reflexivity.
Qed.
(** "a" LF "b" CGJ is given, then reading fails: "b" CGJ is left out. *)
Example C95_example_lossy_any :
  buf_text_lines_lossy 9 9 true at_once (new_bufreader false false [Chunk [0x61; 0xA; 0x62; 0x34F; 0x63] Active; Fail; Chunk [0x64] End] 136) = Some [Line [0x61]; LineErr; Line [0x63; 0x64]].
Proof. vm_compute. reflexivity. Qed.
