(** C44: duplexers with colours; any writes whatever. *)
From Coq Require Import NArith List Bool.
From Verif Require Import Base Ucd Norm Chars TextUtils SpecText TextFacts SpecEscape Utf8 Input Output SpecWrite SpecColour SpecFrag Copy FragProps Duplex SpecDuplex SpecDuplexColour DuplexColour.
Import ListNotations.
Local Open Scope N_scope.

(** Whatever is written, with colours or not, valid or not: take any moment
    ([x1]) after which no line has been read. If closing succeeds, the text sent
    since that moment is empty or ends with a line end.  (Writes of empty
    TextSubstrs are left out, see C28_empty_substr_refuted.) *)
Theorem C44_any_writes : forall nel lsps cr an p o sc os1 rs1 x1 os2 rs2 x2 w',
  do_dops (new_duplexer nel lsps cr an (mksink p o false) sc) os1 = (rs1, x1) -> Forall plain_dop os1 ->
  do_dops x1 os2 = (rs2, x2) -> Forall plain_dop os2 -> Forall (fun r => line_read r = false) rs2 ->
  close (dout x2) = (None, w') ->
  exists u, emitted (inner w') = emitted (inner (dout x1)) ++ u /\ line_terminated u.
Proof. exact close_since. Qed.
Print Assumptions C44_any_writes.
Definition ex_typed : list event := [Chunk [0x79; 0xA] Active; Chunk [0x7A; 0xA] Active; Chunk [] End].
Definition ex_red : list N := [0x1B; 0x5B; 0x33; 0x31; 0x6D].
(* a question in red, the answer read, then a line in red *)
Example C44_any_writes_example :
  let '(rs1, x1) := do_dops (new_duplexer false false true true (mksink [] [] false) ex_typed) [DOut (OpWriteStr (ex_red ++ [0x3F])); DRead 136] in
  let '(rs2, x2) := do_dops x1 [DOut (OpWriteStr (ex_red ++ [0x61; 0xA])); DOut OpFlush] in
  map line_read rs1 = [false; true] /\ map line_read rs2 = [false; false] /\ fst (close (dout x2)) = None /\
  emitted (inner (dout x1)) = ex_red ++ [0x3F] /\ emitted (inner (snd (close (dout x2)))) = (ex_red ++ [0x3F]) ++ ex_red ++ [0x61; 0xD; 0xA].
Proof. vm_compute. auto 10. Qed.

(** With colours on, and sequences cut anywhere into several writes, the written
    side is the writer of the specification (SpecFrag.v), where a read that
    delivers a line end forgets the text written so far, and the part of a
    sequence that has been written. *)
Theorem C44_colours_specification : forall nel lsps cr p o sc xs rs x,
  do_dops (new_duplexer nel lsps cr true (mksink p o false) sc) (map dfop_op xs) = (rs, x) -> dfops_ok [] xs rs ->
  let d := snd (spec_dfops cr [] (new_doc p o) xs rs) in
  spec_dresults cr [] (new_doc p o) xs rs /\ emitted (inner (dout x)) = sent d /\ abandoned (inner (dout x)) = failed d.
Proof. exact duplex_colour. Qed.
Print Assumptions C44_colours_specification.
(** Closing succeeds only outside a sequence and if what is shown since a line
    was read is empty or ends with a line end; then everything shown has been
    sent. *)
Theorem C44_colours_close : forall nel lsps cr p o sc xs rs x w',
  do_dops (new_duplexer nel lsps cr true (mksink p o false) sc) (map dfop_op xs) = (rs, x) -> dfops_ok [] xs rs ->
  close (dout x) = (None, w') ->
  fst (spec_dfops cr [] (new_doc p o) xs rs) = [] /\ line_terminated (dshown_since [] [] xs rs) /\ emitted (inner w') = p ++ as_sent cr (dshown [] xs rs).
Proof. exact duplex_colour_close. Qed.
Print Assumptions C44_colours_close.
Definition ex_sides : list dfop := [DFOut (FWrite [] (mkpainted [0x3F] []) [0x1B; 0x5B]); DFOut (FWrite [0x33; 0x31; 0x6D] (mkpainted [0x61] []) [0x1B]); DFRead 136; DFOut (FWrite [] (mkpainted [] [([0x33; 0x31], [0x62; 0xA])]) [])].
Example C44_colours_example : exists rs x, do_dops (new_duplexer false false true true (mksink [] [] false) ex_typed) (map dfop_op ex_sides) = (rs, x) /\
  dfops_ok [] ex_sides rs /\ fst (close (dout x)) = None /\ dshown_since [] [] ex_sides rs = ex_red ++ [0x62; 0xA] /\
  dshown [] ex_sides rs = [0x3F] ++ ex_red ++ [0x61] ++ ex_red ++ [0x62; 0xA].
Proof.
  exists [DWrote None; DWrote None; DGot (ROk 2 Active) [0x79; 0xA]; DWrote None]. eexists. split; [vm_compute; reflexivity|]. split; [|split; [vm_compute; reflexivity|split; vm_compute; reflexivity]].
  assert (PS : forall t, ~ In 0x1B t -> painted_ok (mkpainted t [])) by (intros t H; split; [constructor; [exact H|constructor]|constructor]).
  split; [split; [|discriminate]; split; [apply PS; cbn; intuition discriminate|split; [now apply shape_unfinished, (sh_csi [])|left; now split]]|].
  split; [split; [|discriminate]; split; [apply PS; cbn; intuition discriminate|split; [now apply shape_unfinished, sh_esc|right]]|].
  - split; [discriminate|]. split; [discriminate|]. exists [0x33; 0x31]. split; [repeat constructor; cbn; discriminate|reflexivity].
  - split; [exact I|]. split; [split; [|discriminate]|exact I]. split; [|split; [apply shape_unfinished, sh_nil|left; now split]].
    split; [constructor; [intros []|constructor; [cbn; intuition discriminate|constructor]]|constructor; [repeat constructor; cbn; discriminate|constructor]].
Qed.

(** A sequence of which a part has been written when a line is read is lost: the
    part is never sent, and its rest is sent as if it were text. *)
Theorem C81_half_sequence_refuted : exists sc os rs x, do_dops (new_duplexer false false false true (mksink [] [] false) sc) os = (rs, x) /\
  flat_map (fun o => match o with DOut (OpWriteStr s) => s | _ => [] end) os = [0x1B; 0x5B; 0x33; 0x31; 0x6D; 0xA] /\
  Forall (fun r => match r with DWrote (Some _) => False | _ => True end) rs /\ emitted (inner (dout x)) = [0x31; 0x6D; 0xA].
Proof.
  exists ex_typed, [DOut (OpWriteStr [0x1B; 0x5B; 0x33]); DRead 136; DOut (OpWriteStr [0x31; 0x6D; 0xA])]. do 2 eexists. split; [vm_compute; reflexivity|].
  split; [reflexivity|]. split; [repeat constructor|reflexivity].
Qed.
Print Assumptions C81_half_sequence_refuted.
