(** C60 and C81 with unassigned characters: exactly when what was stored is read back. *)
From Coq Require Import NArith List Bool Lia.
From Verif Require Import Base Ucd Chars TextUtils SpecText TextFacts IsoFacts Input Output SpecRead SpecWrite SpecConv SpecMore SpecCat SpecColour SpecCut SpecWellCut WellCut ColourProps SpecFrag FragProps StoredCut.
Import ListNotations.
Local Open Scope N_scope.

(** ** C60 *)
(** What a writer has stored is read back unchanged exactly if its unassigned characters
    are preceded by U+34F and the stream is not read again between U+34F and an unassigned
    character. *)
Theorem C60_exact : forall (bom cr : bool) nel lsps ops rs w w' sc o,
  do_ops (new_writer cr false (mksink (if bom then [0xFEFF] else []) [] false)) ops = (rs, w) -> Forall plain_op ops -> Forall line_op ops -> close w = (None, w') ->
  let t := concat (map op_text ops) in stream_text sc = emitted (inner w') -> no_push sc -> bom_visible sc -> gives nel lsps sc o ->
  (o = t <-> preceded t /\ well_cut nel lsps sc).
Proof. exact written_exact. Qed.
Print Assumptions C60_exact.
Theorem C60_stored_exact : forall bom cr nel lsps t sc o, string_ok t -> line_terminated t -> stream_text sc = stored bom cr t -> no_push sc -> bom_visible sc ->
  gives nel lsps sc o -> (o = t <-> preceded t /\ well_cut nel lsps sc).
Proof. exact stored_exact. Qed.
Print Assumptions C60_stored_exact.

(** ** C81 *)
(** The same with colours, which the reader removes. *)
Theorem C81_exact : forall (bom cr : bool) nel lsps ops rs w w' sc o,
  do_ops (new_writer cr true (mksink (if bom then [0xFEFF] else []) [] false)) (map cop_op ops) = (rs, w) -> Forall cop_ok ops -> close w = (None, w') ->
  let v := concat (concat (map cop_pieces ops)) in string_ok v -> stream_text sc = emitted (inner w') -> no_push sc -> bom_visible sc -> gives nel lsps sc o ->
  (o = v <-> preceded v /\ well_cut nel lsps sc).
Proof. exact colour_exact. Qed.
Print Assumptions C81_exact.
(** … and if the sequences are cut into several writes. *)
Theorem C81_cut_exact : forall (bom cr : bool) nel lsps xs rs w w' sc o,
  do_ops (new_writer cr true (mksink (if bom then [0xFEFF] else []) [] false)) (map fop_op xs) = (rs, w) -> fops_ok [] xs -> close w = (None, w') ->
  let v := concat (concat (map fop_pieces xs)) in string_ok v -> stream_text sc = emitted (inner w') -> no_push sc -> bom_visible sc -> gives nel lsps sc o ->
  (o = v <-> preceded v /\ well_cut nel lsps sc).
Proof. exact cut_colour_exact. Qed.
Print Assumptions C81_cut_exact.

Ltac given := exists [136; 136; 136]%nat; do 3 eexists; split; [vm_compute; reflexivity|]; split; [first [eexists []; do 2 eexists; reflexivity|eexists [_]; do 2 eexists; reflexivity|eexists [_; _]; do 2 eexists; reflexivity]|vm_compute; reflexivity].
(** "a" U+378 LF with a byte order mark and U+D U+A, cut between U+34F and U+378, and after U+378. *)
Example C60_exact_example : let t := [0x61; 0x34F; 0x378; 0x34F; 0xA] in let s := [Chunk [0xFEFF; 0x61; 0x34F; 0x378; 0x34F] Active; Chunk [0xD; 0xA] End] in
  let b := [Chunk [0xFEFF; 0x61; 0x34F] Active; Chunk [0x378; 0x34F; 0xD; 0xA] End] in
  emitted (inner (snd (do_ops (new_writer true false (mksink [0xFEFF] [] false)) [OpWriteStr [0x61; 0x378; 0xA]]))) = stored true true t /\ stream_text s = stored true true t /\ stream_text b = stored true true t /\
  string_ok t /\ gives false false s t /\ preceded t /\ well_cut false false s /\ gives false false b [0x61; 0x34F; 0x34F; 0x378; 0x34F; 0xA] /\ ~ well_cut false false b.
Proof.
  cbv zeta. set (t := [0x61; 0x34F; 0x378; 0x34F; 0xA]). set (s := [Chunk [0xFEFF; 0x61; 0x34F; 0x378; 0x34F] Active; Chunk [0xD; 0xA] End]). set (b := [Chunk [0xFEFF; 0x61; 0x34F] Active; Chunk [0x378; 0x34F; 0xD; 0xA] End]).
  assert (OK : string_ok t) by (apply basic_text_spec; vm_compute; reflexivity). assert (LT : line_terminated t) by (right; exists [0x61; 0x34F; 0x378; 0x34F]; reflexivity).
  assert (GS : gives false false s t) by given. assert (GB : gives false false b [0x61; 0x34F; 0x34F; 0x378; 0x34F; 0xA]) by given.
  assert (NS : no_push s) by (intros cs [K|[K|[]]]; discriminate). assert (NB : no_push b) by (intros cs [K|[K|[]]]; discriminate).
  assert (VS : bom_visible s) by (right; do 4 eexists; reflexivity). assert (VB : bom_visible b) by (right; do 4 eexists; reflexivity).
  destruct (proj1 (C60_stored_exact true true false false t s t OK LT eq_refl NS VS GS) eq_refl) as [P W].
  split; [vm_compute; reflexivity|]. do 2 (split; [reflexivity|]). do 5 (split; [assumption|]). intro K.
  pose proof (proj2 (C60_stored_exact true true false false t b _ OK LT eq_refl NB VB GB) (conj P K)) as E. discriminate E.
Qed.
(** The same in red. *)
Definition ex81_cut : list cop := [CWrite (mkpainted [] [([0x33; 0x31], [0x61; 0x378]); ([], [0xA])])].
Example C81_exact_example : Forall cop_ok ex81_cut /\
  let w := snd (do_ops (new_writer false true (mksink [] [] false)) (map cop_op ex81_cut)) in fst (close w) = None /\
  emitted (inner (snd (close w))) = [0x1B; 0x5B; 0x33; 0x31; 0x6D; 0x61; 0x34F; 0x378; 0x34F; 0x1B; 0x5B; 0x6D; 0xA] /\
  concat (concat (map cop_pieces ex81_cut)) = [0x61; 0x34F; 0x378; 0x34F; 0xA] /\
  gives false false [Chunk [0x1B; 0x5B; 0x33; 0x31; 0x6D; 0x61; 0x34F; 0x378; 0x34F; 0x1B; 0x5B] Active; Chunk [0x6D; 0xA] End] [0x61; 0x34F; 0x378; 0x34F; 0xA].
Proof.
  split.
  - constructor; [|constructor]. split; [repeat constructor; cbn; intuition discriminate|]. constructor; [|constructor; [|constructor]].
    + repeat constructor; cbn; discriminate.
    + repeat constructor; cbn; discriminate.
  - cbv zeta. do 3 (split; [vm_compute; reflexivity|]). given.
Qed.
(** A sequence cut after ESC, with U+378. *)
Definition ex81_parts : list fop := [FWrite [] (mkpainted [0x61; 0x378] []) [0x1B]; FWrite [0x5B; 0x6D] (mkpainted [0xA] []) []].
Example C81_cut_exact_example : fops_ok [] ex81_parts /\
  let w := snd (do_ops (new_writer false true (mksink [] [] false)) (map fop_op ex81_parts)) in fst (close w) = None /\
  emitted (inner (snd (close w))) = [0x61; 0x34F; 0x378; 0x34F; 0x1B; 0x5B; 0x6D; 0xA] /\
  concat (concat (map fop_pieces ex81_parts)) = [0x61; 0x34F; 0x378; 0x34F; 0xA] /\
  gives false false [Chunk [0x61; 0x34F; 0x378; 0x34F; 0x1B; 0x5B] Active; Chunk [0x6D; 0xA] End] [0x61; 0x34F; 0x378; 0x34F; 0xA].
Proof.
  assert (PS : forall t, ~ In 0x1B t -> painted_ok (mkpainted t [])) by (intros t H; split; [constructor; [exact H|constructor]|constructor]).
  split.
  - split; [split; [apply PS; cbn; intuition discriminate|split; [now apply shape_unfinished, sh_esc|left; now split]]|].
    split; [|exact Logic.I]. split; [apply PS; cbn; intuition discriminate|]. split; [apply shape_unfinished, sh_nil|]. right.
    split; [discriminate|]. split; [discriminate|]. exists []. split; [constructor|reflexivity].
  - cbv zeta. do 3 (split; [vm_compute; reflexivity|]). given.
Qed.
