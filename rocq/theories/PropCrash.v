(** C107: streams that are cut off. *)
From Coq Require Import NArith List Bool Lia.
From Verif Require Import Base Ucd Norm Chars TextUtils DocTable SpecText DocFacts TextFacts Utf8 Utf8Facts SpecUtf8 Utf8Lossy Input Output SpecRead SpecConv SpecWrite SpecMore SpecCat SpecCrash CrashProps Duplex SpecDuplex CrashDuplex SpecColour CrashColour SpecFrag SpecDuplexColour SpecCrashColour CrashFrag.
Import ListNotations.
Local Open Scope N_scope.

(** Whatever the operations and the failures of the stream below, at any moment a strict
    writer has sent a beginning of what was written. *)
Theorem C107_sent : forall cr p o ops rs w, do_ops (new_writer cr false (mksink p o false)) ops = (rs, w) -> Forall plain_op ops ->
  beginning (emitted (inner w)) (p ++ as_sent cr (concat (map op_text ops))).
Proof. exact sent_beginning. Qed.
Print Assumptions C107_sent.

(** A stored text, cut off after any byte: reading gives a beginning of the text with a
    repaired end, and everything of the text that is left in the bytes. *)
Theorem C107_cut_off : forall bom cr nel lsps t b sc o, substring_ok t -> starts_ok t -> scalars t -> Forall (fun c => is_assigned c = true) t -> cut_off bom cr t b ->
  lossy_decoding b (stream_text sc) -> no_push sc -> bom_visible sc -> gives nel lsps sc o ->
  exists q e, beginning q t /\ o = q ++ e /\ In e repairs /\ string_ok o /\ line_terminated o /\ (forall q', beginning q' t -> survives bom cr q' b -> beginning q' q).
Proof. exact cut_read. Qed.
Print Assumptions C107_cut_off.
(** "a", a line end, U+E9 and a line end, cut off in the middle of U+E9. *)
Example C107_example_cut : let t := [0x61; 0xA; 0xE9; 0xA] in let b := [0x61; 0xD; 0xA; 0xC3] in let sc := [Chunk [0x61; 0xD] Active; Chunk [0xA; 0xFFFD] End] in
  substring_ok t /\ starts_ok t /\ scalars t /\ Forall (fun c => is_assigned c = true) t /\ cut_off false true t b /\ lossy_decoding b (stream_text sc) /\ no_push sc /\ bom_visible sc /\
  gives false false sc [0x61; 0xA; 0xFFFD; 0xA].
Proof.
  cbv zeta. split; [apply substr_spec; vm_compute; reflexivity|]. split; [apply starts_ok_iff; vm_compute; reflexivity|]. split; [repeat constructor|]. split; [repeat constructor; vm_compute; reflexivity|].
  split; [exists [0xA9; 0xD; 0xA]; reflexivity|]. split; [apply utf8_lossy_exact; vm_compute; reflexivity|]. split; [intros cs [H|[H|[]]]; discriminate|]. split; [left; discriminate|].
  exists [136; 136]%nat. do 3 eexists. split; [vm_compute; reflexivity|]. split; [eexists [_]; do 2 eexists; reflexivity|vm_compute; reflexivity].
Qed.

(** Text with unassigned characters, read at once. *)
Theorem C107_at_once : forall bom cr nel lsps t b x o, substring_ok t -> starts_ok t -> scalars t -> preceded t -> cut_off bom cr t b ->
  lossy_decoding b x -> gives nel lsps [Chunk x End] o ->
  exists q e, beginning q t /\ o = q ++ e /\ In e repairs /\ string_ok o /\ line_terminated o /\ (forall q', beginning q' t -> survives bom cr q' b -> beginning q' q).
Proof. exact cut_read_at_once. Qed.
Print Assumptions C107_at_once.
(** U+34F, the unassigned U+378, U+34F and a line end, cut off after two of them. *)
Example C107_example_at_once : let t := [0x34F; 0x378; 0x34F; 0xA] in let b := [0xCD; 0x8F; 0xCD; 0xB8] in
  substring_ok t /\ starts_ok t /\ scalars t /\ preceded t /\ cut_off false false t b /\ lossy_decoding b [0x34F; 0x378] /\ gives false false [Chunk [0x34F; 0x378] End] [0x34F; 0x378; 0xA].
Proof.
  cbv zeta. split; [apply substr_spec; vm_compute; reflexivity|]. split; [apply starts_ok_iff; vm_compute; reflexivity|]. split; [repeat constructor|]. split; [apply PipelineFacts.prec_ok_spec; vm_compute; reflexivity|].
  split; [exists [0xCD; 0x8F; 0xA]; reflexivity|]. split; [apply utf8_lossy_exact; vm_compute; reflexivity|].
  exists [136]%nat. do 3 eexists. split; [vm_compute; reflexivity|]. split; [eexists []; do 2 eexists; reflexivity|vm_compute; reflexivity].
Qed.

(** The whole way: operations on a writer, the stream below failing at any of its calls,
    only some of the bytes it took stored in the end, and these read. *)
Theorem C107_crash : forall (bom cr : bool) o ops rs w nel lsps b sc out, do_ops (new_writer cr false (mksink (if bom then [0xFEFF] else []) o false)) ops = (rs, w) -> Forall plain_op ops ->
  let t := concat (map op_text ops) in substring_ok t -> starts_ok t -> scalars t -> Forall (fun c => is_assigned c = true) t ->
  beginning b (encode_all (emitted (inner w))) -> lossy_decoding b (stream_text sc) -> no_push sc -> bom_visible sc -> gives nel lsps sc out ->
  exists q e, beginning q t /\ out = q ++ e /\ In e repairs /\ string_ok out /\ line_terminated out /\ (forall q', beginning q' t -> survives bom cr q' b -> beginning q' q).
Proof. exact crash_read. Qed.
Print Assumptions C107_crash.
(** "a" and a line end, then a letter with an accent, U+200D, "x" and a line end; the second
    write fails after two characters. *)
Example C107_example_crash : let ops := [OpWriteStr [0x61; 0xA]; OpWriteStr [0x65; 0x301; 0x200D; 0x78; 0xA]] in let t := concat (map op_text ops) in let w := snd (do_ops (new_writer false false (mksink [] [WOk; WErr 2] false)) ops) in
  t = [0x61; 0xA; 0xE9; 0x200D; 0x78; 0xA] /\ substring_ok t /\ emitted (inner w) = [0x61; 0xA; 0xE9; 0x200D] /\ gives false false [Chunk (emitted (inner w)) End] [0x61; 0xA; 0xE9; 0x200D; 0x34F; 0xA].
Proof.
  cbv zeta. assert (E : concat (map op_text [OpWriteStr [0x61; 0xA]; OpWriteStr [0x65; 0x301; 0x200D; 0x78; 0xA]]) = [0x61; 0xA; 0xE9; 0x200D; 0x78; 0xA]) by (vm_compute; reflexivity). rewrite E.
  split; [reflexivity|]. split; [apply substr_spec; vm_compute; reflexivity|]. assert (EM : emitted (inner (snd (do_ops (new_writer false false (mksink [] [WOk; WErr 2] false)) [OpWriteStr [0x61; 0xA]; OpWriteStr [0x65; 0x301; 0x200D; 0x78; 0xA]]))) = [0x61; 0xA; 0xE9; 0x200D]) by (vm_compute; reflexivity).
  rewrite EM. split; [reflexivity|]. exists [136]%nat. do 3 eexists. split; [vm_compute; reflexivity|]. split; [eexists []; do 2 eexists; reflexivity|vm_compute; reflexivity].
Qed.

(** The same of a duplexer, with reads between the writes. *)
Theorem C107_duplex_sent : forall nel lsps cr p o sc os rs x, do_dops (new_duplexer nel lsps cr false (mksink p o false) sc) os = (rs, x) -> Forall plain_dop os ->
  beginning (emitted (inner (dout x))) (p ++ as_sent cr (written os)).
Proof. exact duplex_beginning. Qed.
Print Assumptions C107_duplex_sent.

(** The other end reads what has arrived. *)
Theorem C107_duplex_crash : forall nel lsps (bom cr : bool) o sc os rs x nel2 lsps2 b sc2 out, do_dops (new_duplexer nel lsps cr false (mksink (if bom then [0xFEFF] else []) o false) sc) os = (rs, x) -> Forall plain_dop os ->
  let t := written os in substring_ok t -> starts_ok t -> scalars t -> Forall (fun c => is_assigned c = true) t ->
  beginning b (encode_all (emitted (inner (dout x)))) -> lossy_decoding b (stream_text sc2) -> no_push sc2 -> bom_visible sc2 -> gives nel2 lsps2 sc2 out ->
  exists q e, beginning q t /\ out = q ++ e /\ In e repairs /\ string_ok out /\ line_terminated out /\ (forall q', beginning q' t -> survives bom cr q' b -> beginning q' q).
Proof. exact duplex_crash. Qed.
Print Assumptions C107_duplex_crash.
(** "a" and a line end, a read, then "hi" and a line end of which one character arrives. *)
Example C107_example_duplex : let os := [DOut (OpWriteStr [0x61; 0xA]); DRead 136; DOut (OpWriteStr [0x68; 0x69; 0xA])] in
  let x := snd (do_dops (new_duplexer false false false false (mksink [] [WOk; WErr 1] false) [Chunk [0x79; 0xA] Active]) os) in
  Forall plain_dop os /\ written os = [0x61; 0xA; 0x68; 0x69; 0xA] /\ substring_ok (written os) /\ emitted (inner (dout x)) = [0x61; 0xA; 0x68] /\ gives false false [Chunk (emitted (inner (dout x))) End] [0x61; 0xA; 0x68; 0xA].
Proof.
  cbv zeta. split; [repeat constructor; try discriminate; intro K; repeat (destruct K as [K|K]; [discriminate K|]); exact K|].
  assert (E : written [DOut (OpWriteStr [0x61; 0xA]); DRead 136; DOut (OpWriteStr [0x68; 0x69; 0xA])] = [0x61; 0xA; 0x68; 0x69; 0xA]) by (vm_compute; reflexivity). rewrite E.
  split; [reflexivity|]. split; [apply substr_spec; vm_compute; reflexivity|].
  assert (EM : emitted (inner (dout (snd (do_dops (new_duplexer false false false false (mksink [] [WOk; WErr 1] false) [Chunk [0x79; 0xA] Active]) [DOut (OpWriteStr [0x61; 0xA]); DRead 136; DOut (OpWriteStr [0x68; 0x69; 0xA])])))) = [0x61; 0xA; 0x68]) by (vm_compute; reflexivity).
  rewrite EM. split; [reflexivity|]. exists [136]%nat. do 3 eexists. split; [vm_compute; reflexivity|]. split; [eexists []; do 2 eexists; reflexivity|vm_compute; reflexivity].
Qed.

(** The same with colours: the sequences are part of what is sent. *)
Theorem C107_colour_sent : forall cr p o ops rs w, do_ops (new_writer cr true (mksink p o false)) (map cop_op ops) = (rs, w) -> Forall cop_ok ops ->
  beginning (emitted (inner w)) (p ++ as_sent cr (concat (map cop_shown ops))).
Proof. exact colour_beginning. Qed.
Print Assumptions C107_colour_sent.

(** A text with colours, cut off after any byte, also in the middle of a sequence: reading
    gives a beginning of the text without its colours, with a repaired end, and everything
    that is left in the bytes. *)
Theorem C107_colour_cut : forall bom cr nel lsps u v b sc o, uncoloured u v -> substring_ok v -> starts_ok v -> scalars v -> Forall (fun c => is_assigned c = true) v -> cut_off bom cr u b ->
  lossy_decoding b (stream_text sc) -> no_push sc -> bom_visible sc -> gives nel lsps sc o ->
  exists q e, beginning q v /\ o = q ++ e /\ In e repairs /\ string_ok o /\ line_terminated o /\ (forall u' v', beginning u' u -> uncoloured u' v' -> survives bom cr u' b -> beginning v' q).
Proof. exact colour_cut_read. Qed.
Print Assumptions C107_colour_cut.
Theorem C107_colour_at_once : forall bom cr nel lsps u v b x o, uncoloured u v -> substring_ok v -> starts_ok v -> scalars v -> preceded v -> cut_off bom cr u b ->
  lossy_decoding b x -> gives nel lsps [Chunk x End] o ->
  exists q e, beginning q v /\ o = q ++ e /\ In e repairs /\ string_ok o /\ line_terminated o /\ (forall u' v', beginning u' u -> uncoloured u' v' -> survives bom cr u' b -> beginning v' q).
Proof. exact colour_cut_at_once. Qed.
Print Assumptions C107_colour_at_once.
(** The whole way. *)
Theorem C107_colour_crash : forall (bom cr : bool) o ops rs w nel lsps b sc out, do_ops (new_writer cr true (mksink (if bom then [0xFEFF] else []) o false)) (map cop_op ops) = (rs, w) -> Forall cop_ok ops ->
  let u := concat (map cop_shown ops) in let v := concat (concat (map cop_pieces ops)) in substring_ok v -> starts_ok v -> scalars v -> Forall (fun c => is_assigned c = true) v ->
  beginning b (encode_all (emitted (inner w))) -> lossy_decoding b (stream_text sc) -> no_push sc -> bom_visible sc -> gives nel lsps sc out ->
  exists q e, beginning q v /\ out = q ++ e /\ In e repairs /\ string_ok out /\ line_terminated out /\ (forall u' v', beginning u' u -> uncoloured u' v' -> survives bom cr u' b -> beginning v' q).
Proof. exact colour_crash. Qed.
Print Assumptions C107_colour_crash.
(** "a" and a line end, then a bold "hi" and a line end; what arrives ends in the middle of
    the sequence after "hi". *)
Example C107_example_colour : let ops := [CText [0x61; 0xA]; CWrite (mkpainted [] [([0x31], [0x68; 0x69]); ([0x30], [0xA])]); CFlush] in
  let u := concat (map cop_shown ops) in let v := concat (concat (map cop_pieces ops)) in let w := snd (do_ops (new_writer false true (mksink [] [WOk; WErr 8] false)) (map cop_op ops)) in
  Forall cop_ok ops /\ u = [0x61; 0xA; 0x1B; 0x5B; 0x31; 0x6D; 0x68; 0x69; 0x1B; 0x5B; 0x30; 0x6D; 0xA] /\ v = [0x61; 0xA; 0x68; 0x69; 0xA] /\ substring_ok v /\ starts_ok v /\
  emitted (inner w) = [0x61; 0xA; 0x1B; 0x5B; 0x31; 0x6D; 0x68; 0x69; 0x1B; 0x5B] /\ gives false false [Chunk (emitted (inner w)) End] [0x61; 0xA; 0x68; 0x69; 0xA].
Proof.
  cbv zeta. split.
  { apply Forall_cons; [split; [discriminate|vm_compute; reflexivity]|]. apply Forall_cons; [|apply Forall_cons; [exact I|constructor]]. split.
    - apply Forall_cons; [intros []|]. apply Forall_cons; [intros [K|[K|[]]]; discriminate|]. apply Forall_cons; [intros [K|[]]; discriminate|constructor].
    - apply Forall_cons; [|apply Forall_cons; [|constructor]]; (apply Forall_cons; [|constructor]); split; discriminate. }
  match goal with |- ?x = _ /\ _ => assert (E : x = [0x61; 0xA; 0x1B; 0x5B; 0x31; 0x6D; 0x68; 0x69; 0x1B; 0x5B; 0x30; 0x6D; 0xA]) by (vm_compute; reflexivity) end. split; [exact E|].
  match goal with |- ?x = _ /\ _ => assert (E2 : x = [0x61; 0xA; 0x68; 0x69; 0xA]) by (vm_compute; reflexivity) end. rewrite E2. split; [reflexivity|].
  split; [apply substr_spec; vm_compute; reflexivity|]. split; [apply starts_ok_iff; vm_compute; reflexivity|].
  match goal with |- ?x = _ /\ _ => assert (EM : x = [0x61; 0xA; 0x1B; 0x5B; 0x31; 0x6D; 0x68; 0x69; 0x1B; 0x5B]) by (vm_compute; reflexivity) end. rewrite EM. split; [reflexivity|].
  exists [136]%nat. do 3 eexists. split; [vm_compute; reflexivity|]. split; [eexists []; do 2 eexists; reflexivity|vm_compute; reflexivity].
Qed.

(** The application may cut the colour sequences into several writes. *)
Theorem C107_frag_sent : forall cr p o xs rs w, do_ops (new_writer cr true (mksink p o false)) (map fop_op xs) = (rs, w) -> fops_ok [] xs -> beginning (emitted (inner w)) (p ++ as_sent cr (fops_shown [] xs)).
Proof. exact frag_beginning. Qed.
Print Assumptions C107_frag_sent.
Theorem C107_frag_crash : forall (bom cr : bool) o xs rs w nel lsps b sc out, do_ops (new_writer cr true (mksink (if bom then [0xFEFF] else []) o false)) (map fop_op xs) = (rs, w) -> fops_ok [] xs ->
  let u := fops_shown [] xs in let v := concat (concat (map fop_pieces xs)) in substring_ok v -> starts_ok v -> scalars v -> Forall (fun c => is_assigned c = true) v ->
  beginning b (encode_all (emitted (inner w))) -> lossy_decoding b (stream_text sc) -> no_push sc -> bom_visible sc -> gives nel lsps sc out ->
  exists q e, beginning q v /\ out = q ++ e /\ In e repairs /\ string_ok out /\ line_terminated out /\ (forall u' v', beginning u' u -> uncoloured u' v' -> survives bom cr u' b -> beginning v' q).
Proof. exact frag_crash. Qed.
Print Assumptions C107_frag_crash.
(** The same on a duplexer. *)
Theorem C107_duplex_colour_sent : forall nel lsps cr p o sc xs rs x, do_dops (new_duplexer nel lsps cr true (mksink p o false) sc) (map dfop_op xs) = (rs, x) -> dfops_ok [] xs rs ->
  beginning (emitted (inner (dout x))) (p ++ as_sent cr (dshown [] xs rs)).
Proof. exact duplex_colour_beginning. Qed.
Print Assumptions C107_duplex_colour_sent.
Theorem C107_duplex_colour_crash : forall nel lsps (bom cr : bool) o sc xs rs x nel2 lsps2 b sc2 out, do_dops (new_duplexer nel lsps cr true (mksink (if bom then [0xFEFF] else []) o false) sc) (map dfop_op xs) = (rs, x) -> dfops_ok [] xs rs ->
  let u := dshown [] xs rs in let v := concat (concat (map dfop_pieces xs)) in substring_ok v -> starts_ok v -> scalars v -> Forall (fun c => is_assigned c = true) v ->
  beginning b (encode_all (emitted (inner (dout x)))) -> lossy_decoding b (stream_text sc2) -> no_push sc2 -> bom_visible sc2 -> gives nel2 lsps2 sc2 out ->
  exists q e, beginning q v /\ out = q ++ e /\ In e repairs /\ string_ok out /\ line_terminated out /\ (forall u' v', beginning u' u -> uncoloured u' v' -> survives bom cr u' b -> beginning v' q).
Proof. exact duplex_colour_crash. Qed.
Print Assumptions C107_duplex_colour_crash.
(** A red "?" in two writes, a line read, a red "b" and a line end; of the last write the stream
    takes four characters. *)
Example C107_example_duplex_colour : let xs := [DFOut (FWrite [] (mkpainted [] []) [0x1B; 0x5B]); DFOut (FWrite [0x33; 0x31; 0x6D] (mkpainted [0x3F] []) []); DFRead 136; DFOut (FWrite [] (mkpainted [] [([0x33; 0x31], [0x62; 0xA])]) [])] in
  exists rs x, do_dops (new_duplexer false false false true (mksink [] [WOk; WOk; WErr 4] false) [Chunk [0x79; 0xA] Active; Chunk [] End]) (map dfop_op xs) = (rs, x) /\ dfops_ok [] xs rs /\
  rs = [DWrote None; DWrote None; DGot (ROk 2 Active) [0x79; 0xA]; DWrote (Some EWInner)] /\ concat (concat (map dfop_pieces xs)) = [0x3F; 0x62; 0xA] /\
  emitted (inner (dout x)) = [0x1B; 0x5B; 0x33; 0x31; 0x6D; 0x3F; 0x1B; 0x5B; 0x33; 0x31] /\ gives false false [Chunk (emitted (inner (dout x))) End] [0x3F; 0xA].
Proof.
  cbv zeta. exists [DWrote None; DWrote None; DGot (ROk 2 Active) [0x79; 0xA]; DWrote (Some EWInner)]. eexists. split; [vm_compute; reflexivity|].
  assert (PS : forall t, ~ In 0x1B t -> painted_ok (mkpainted t [])) by (intros t H; split; [constructor; [exact H|constructor]|constructor]).
  split.
  { split; [split; [|discriminate]; split; [apply PS; intros []|split; [now apply FragProps.shape_unfinished, (FragProps.sh_csi [])|left; now split]]|].
    split; [split; [|discriminate]; split; [apply PS; cbn; intuition discriminate|split; [apply FragProps.shape_unfinished, FragProps.sh_nil|right]]|].
    - split; [discriminate|]. split; [discriminate|]. exists [0x33; 0x31]. split; [repeat constructor; cbn; discriminate|reflexivity].
    - split; [exact I|]. split; [split; [|discriminate]|exact I]. split; [|split; [apply FragProps.shape_unfinished, FragProps.sh_nil|left; now split]].
      split; [constructor; [intros []|constructor; [cbn; intuition discriminate|constructor]]|constructor; [repeat constructor; cbn; discriminate|constructor]]. }
  split; [reflexivity|]. split; [vm_compute; reflexivity|]. split; [vm_compute; reflexivity|].
  exists [136]%nat. do 3 eexists. split; [vm_compute; reflexivity|]. split; [eexists []; do 2 eexists; reflexivity|vm_compute; reflexivity].
Qed.
