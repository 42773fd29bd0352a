(** C108: damaged lines. *)
From Coq Require Import NArith List Bool Lia.
From Verif Require Import Base Ucd Norm Chars TextUtils DocTable SpecText DocFacts TextFacts Utf8 Utf8Facts SpecUtf8 Utf8Lossy PipelineFacts IsoFacts Input Output SpecRead SpecConv SpecEscape SpecWrite SpecMore SpecCat SpecCrash SpecDamage DamageProps SeekProps SpecColour DamageColour SeekColour AppendColour AppendOnce.
Import ListNotations.
Local Open Scope N_scope.

(** Lines, a line of any bytes without U+1B, and lines: reading gives the first lines, what
    the damaged line reads as after a line end, and the last lines. *)
Theorem C108_middle : forall bom cr cr2 nel lsps before g after d, whole_lines before -> whole_lines after -> ~ In 0x1B g -> lossy_decoding g d ->
  Forall (fun c => is_assigned c = true) before -> Forall (fun c => is_assigned c = true) after ->
  forall sc o, before <> [] -> settled nel lsps (d ++ [0xA]) -> lossy_decoding (with_damage bom cr cr2 before g after) (stream_text sc) -> regular sc -> gives nel lsps sc o ->
  exists y, o = before ++ y ++ 0xA :: after /\ forall z, gives nel lsps [Chunk (0xA :: d ++ [0xA]) End] z -> z = 0xA :: y ++ [0xA].
Proof. exact damage_read. Qed.
Print Assumptions C108_middle.
(** "a" and a line end, a combining accent and an invalid byte, "b" and a line end. *)
Example C108_example_middle : let before := [0x61; 0xA] in let g := [0xCC; 0x81; 0xFF] in let after := [0x62; 0xA] in let d := [0x301; 0xFFFD] in let sc := [Chunk [0x61; 0xA; 0x301; 0xFFFD] Active; Chunk [0xA; 0x62; 0xA] End] in
  whole_lines before /\ whole_lines after /\ ~ In 0x1B g /\ lossy_decoding g d /\ settled false false (d ++ [0xA]) /\ lossy_decoding (with_damage false false false before g after) (stream_text sc) /\ regular sc /\
  gives false false sc [0x61; 0xA; 0x301; 0xFFFD; 0xA; 0x62; 0xA].
Proof.
  cbv zeta. split; [split; [apply basic_text_spec; vm_compute; reflexivity|split; [right; now exists [0x61]|repeat constructor]]|]. split; [split; [apply basic_text_spec; vm_compute; reflexivity|split; [right; now exists [0x62]|repeat constructor]]|].
  split; [intros [H|[H|[H|[]]]]; discriminate|]. split; [apply utf8_lossy_exact; vm_compute; reflexivity|]. split; [apply line_settled; repeat constructor; vm_compute; reflexivity|]. split; [apply utf8_lossy_exact; vm_compute; reflexivity|].
  split; [split; [intros cs [H|[H|[]]]; discriminate|left; discriminate]|]. exists [136; 136]%nat. do 3 eexists. split; [vm_compute; reflexivity|]. split; [eexists [_]; do 2 eexists; reflexivity|vm_compute; reflexivity].
Qed.

(** The damaged line is the first one. *)
Theorem C108_first : forall cr2 nel lsps g after d, whole_lines after -> ~ In 0x1B g -> lossy_decoding g d -> Forall (fun c => is_assigned c = true) after ->
  forall sc o, settled nel lsps (without_bom (d ++ [0xA])) -> lossy_decoding (g ++ [0xA] ++ encode_all (as_sent cr2 after)) (stream_text sc) -> regular sc -> gives nel lsps sc o ->
  exists y, o = y ++ 0xA :: after /\ forall z, gives nel lsps [Chunk (d ++ [0xA]) End] z -> z = y ++ [0xA].
Proof. exact damage_first. Qed.
Print Assumptions C108_first.
(** An invalid byte and a carriage return, "b" and a line end. *)
Example C108_example_first : let g := [0xFF; 0xD] in let after := [0x62; 0xA] in let d := [0xFFFD; 0xD] in let sc := [Chunk [0xFFFD; 0xD] Active; Chunk [0xA; 0x62; 0xA] End] in
  whole_lines after /\ ~ In 0x1B g /\ lossy_decoding g d /\ settled false false (without_bom (d ++ [0xA])) /\ lossy_decoding (g ++ [0xA] ++ encode_all (as_sent false after)) (stream_text sc) /\ regular sc /\
  gives false false sc [0xFFFD; 0xA; 0x62; 0xA].
Proof.
  cbv zeta. split; [split; [apply basic_text_spec; vm_compute; reflexivity|split; [right; now exists [0x62]|repeat constructor]]|].
  split; [intros [H|[H|[]]]; discriminate|]. split; [apply utf8_lossy_exact; vm_compute; reflexivity|]. split; [apply (line_settled false false [0xFFFD; 0xD]); repeat constructor; vm_compute; reflexivity|]. split; [apply utf8_lossy_exact; vm_compute; reflexivity|].
  split; [split; [intros cs [H|[H|[]]]; discriminate|left; discriminate]|]. exists [136; 136]%nat. do 3 eexists. split; [vm_compute; reflexivity|]. split; [eexists [_]; do 2 eexists; reflexivity|vm_compute; reflexivity].
Qed.

(** Text with unassigned characters, read at once. *)
Theorem C108_at_once : forall bom cr cr2 nel lsps before g after d, whole_lines before -> whole_lines after -> ~ In 0x1B g -> lossy_decoding g d ->
  forall x o, before <> [] -> preceded before -> preceded after -> lossy_decoding (with_damage bom cr cr2 before g after) x -> gives nel lsps [Chunk x End] o ->
  exists y, o = before ++ y ++ 0xA :: after /\ forall z, gives nel lsps [Chunk (0xA :: d ++ [0xA]) End] z -> z = 0xA :: y ++ [0xA].
Proof. exact damage_at_once. Qed.
Print Assumptions C108_at_once.
Theorem C108_first_at_once : forall cr2 nel lsps g after d, whole_lines after -> ~ In 0x1B g -> lossy_decoding g d ->
  forall x o, preceded after -> lossy_decoding (g ++ [0xA] ++ encode_all (as_sent cr2 after)) x -> gives nel lsps [Chunk x End] o ->
  exists y, o = y ++ 0xA :: after /\ forall z, gives nel lsps [Chunk (d ++ [0xA]) End] z -> z = y ++ [0xA].
Proof. exact damage_first_at_once. Qed.
Print Assumptions C108_first_at_once.
(** A line with the unassigned U+378, a line with U+378 alone, and the first line again. *)
Example C108_example_at_once : let before := [0x34F; 0x378; 0x34F; 0xA] in let g := [0xCD; 0xB8] in let x := [0x34F; 0x378; 0x34F; 0xD; 0xA; 0x378; 0xA; 0x34F; 0x378; 0x34F; 0xA] in
  whole_lines before /\ ~ In 0x1B g /\ lossy_decoding g [0x378] /\ preceded before /\ lossy_decoding (with_damage false true false before g before) x /\
  gives false false [Chunk x End] [0x34F; 0x378; 0x34F; 0xA; 0x34F; 0x378; 0x34F; 0xA; 0x34F; 0x378; 0x34F; 0xA] /\
  gives false false [Chunk [0x378; 0xA; 0x34F; 0x378; 0x34F; 0xA] End] [0x34F; 0x378; 0x34F; 0xA; 0x34F; 0x378; 0x34F; 0xA].
Proof.
  cbv zeta. split; [split; [apply basic_text_spec; vm_compute; reflexivity|split; [right; now exists [0x34F; 0x378; 0x34F]|repeat constructor]]|].
  split; [intros [H|[H|[]]]; discriminate|]. split; [apply utf8_lossy_exact; vm_compute; reflexivity|]. split; [apply PipelineFacts.prec_ok_spec; vm_compute; reflexivity|]. split; [apply utf8_lossy_exact; vm_compute; reflexivity|].
  split; exists [136]%nat; do 3 eexists; (split; [vm_compute; reflexivity|]; split; [eexists []; do 2 eexists; reflexivity|vm_compute; reflexivity]).
Qed.

(** A text [t] is cut off after any byte, and another text is written behind it: the lines
    [p] of [t] that are left, and the lines [l] after the first line of the other text, are
    read as they were. *)
Theorem C108_append : forall bom cr cr2 nel lsps t p r f l b, Forall allowed t -> Forall (fun c => is_scalar c = true) t -> Forall (fun c => is_assigned c = true) t -> whole_lines p -> t = p ++ r ->
  Forall allowed f -> Forall (fun c => is_scalar c = true) f -> Forall (fun c => is_assigned c = true) f -> whole_lines l -> Forall (fun c => is_assigned c = true) l ->
  cut_off bom cr t b -> survives bom cr p b ->
  forall sc o, lossy_decoding (b ++ encode_all (as_sent cr2 (f ++ 0xA :: l))) (stream_text sc) -> regular sc -> gives nel lsps sc o -> exists y, o = p ++ y ++ 0xA :: l.
Proof. exact append_read. Qed.
Print Assumptions C108_append.
Theorem C108_append_at_once : forall bom cr cr2 nel lsps t p r f l b, Forall allowed t -> Forall (fun c => is_scalar c = true) t -> whole_lines p -> preceded p -> t = p ++ r ->
  Forall allowed f -> Forall (fun c => is_scalar c = true) f -> whole_lines l -> preceded l -> cut_off bom cr t b -> survives bom cr p b ->
  forall x o, lossy_decoding (b ++ encode_all (as_sent cr2 (f ++ 0xA :: l))) x -> gives nel lsps [Chunk x End] o -> exists y, o = p ++ y ++ 0xA :: l.
Proof. exact append_at_once. Qed.
Print Assumptions C108_append_at_once.
(** "a", a line end, U+E9, a line end, cut off in the middle of U+E9, then "c", a line end,
    "d" and a line end. *)
Example C108_example_append : let t := [0x61; 0xA; 0xE9; 0xA] in let b := [0x61; 0xA; 0xC3] in let sc := [Chunk [0x61; 0xA; 0xFFFD; 0x63; 0xA; 0x64; 0xA] End] in
  cut_off false false t b /\ survives false false [0x61; 0xA] b /\ lossy_decoding (b ++ encode_all (as_sent false ([0x63] ++ 0xA :: [0x64; 0xA]))) (stream_text sc) /\ gives false false sc [0x61; 0xA; 0xFFFD; 0x63; 0xA; 0x64; 0xA].
Proof.
  cbv zeta. split; [exists [0xA9; 0xA]; reflexivity|]. split; [exists [0xC3]; reflexivity|]. split; [apply utf8_lossy_exact; vm_compute; reflexivity|].
  exists [136]%nat. do 3 eexists. split; [vm_compute; reflexivity|]. split; [eexists []; do 2 eexists; reflexivity|vm_compute; reflexivity].
Qed.

(** Reading from any byte of a stored text on (where a file was opened in the middle): after
    the first line end, the lines are read as they were. *)
Theorem C108_seek : forall bom cr nel lsps t l z g, Forall allowed t -> Forall (fun c => is_scalar c = true) t -> Forall (fun c => is_assigned c = true) t -> whole_lines l -> Forall (fun c => is_assigned c = true) l ->
  encode_all (stored bom cr t) = z ++ g ++ [0xA] ++ encode_all (as_sent cr l) ->
  forall sc o, lossy_decoding (g ++ [0xA] ++ encode_all (as_sent cr l)) (stream_text sc) -> regular sc -> gives nel lsps sc o -> exists y, o = y ++ 0xA :: l.
Proof. exact seek_read. Qed.
Print Assumptions C108_seek.
Theorem C108_seek_at_once : forall bom cr nel lsps t l z g, Forall allowed t -> whole_lines l -> encode_all (stored bom cr t) = z ++ g ++ [0xA] ++ encode_all (as_sent cr l) ->
  forall x o, preceded l -> lossy_decoding (g ++ [0xA] ++ encode_all (as_sent cr l)) x -> gives nel lsps [Chunk x End] o -> exists y, o = y ++ 0xA :: l.
Proof. exact seek_at_once. Qed.
Print Assumptions C108_seek_at_once.
(** U+E9, a line end, "b" and a line end, read from the second byte on. *)
Example C108_example_seek : let t := [0xE9; 0xA; 0x62; 0xA] in let l := [0x62; 0xA] in let g := [0xA9; 0xD] in let sc := [Chunk [0xFFFD; 0xD; 0xA] Active; Chunk [0x62; 0xD; 0xA] End] in
  encode_all (stored false true t) = [0xC3] ++ g ++ [0xA] ++ encode_all (as_sent true l) /\ lossy_decoding (g ++ [0xA] ++ encode_all (as_sent true l)) (stream_text sc) /\ regular sc /\ gives false false sc [0xFFFD; 0xA; 0x62; 0xA].
Proof.
  cbv zeta. split; [reflexivity|]. split; [apply utf8_lossy_exact; vm_compute; reflexivity|]. split; [split; [intros cs [H|[H|[]]]; discriminate|left; discriminate]|].
  exists [136; 136]%nat. do 3 eexists. split; [vm_compute; reflexivity|]. split; [eexists [_]; do 2 eexists; reflexivity|vm_compute; reflexivity].
Qed.

(** With U+1B in the damaged line this holds if the line end is not taken into an escape
    sequence. *)
Theorem C108_escape : forall bom cr cr2 nel lsps before g after d, whole_lines before -> whole_lines after -> lossy_decoding g d ->
  Forall (fun c => is_assigned c = true) before -> Forall (fun c => is_assigned c = true) after -> ends_line nel lsps (d ++ [0xA]) ->
  forall sc o, before <> [] -> settled nel lsps (d ++ [0xA]) -> lossy_decoding (with_damage bom cr cr2 before g after) (stream_text sc) -> regular sc -> gives nel lsps sc o ->
  exists y, o = before ++ y ++ 0xA :: after /\ forall z, gives nel lsps [Chunk (0xA :: d ++ [0xA]) End] z -> z = 0xA :: y ++ [0xA].
Proof. exact damage_read_esc. Qed.
Print Assumptions C108_escape.
Theorem C108_escape_first : forall cr2 nel lsps g after d, whole_lines after -> lossy_decoding g d -> Forall (fun c => is_assigned c = true) after -> ends_line nel lsps (without_bom (d ++ [0xA])) ->
  forall sc o, settled nel lsps (without_bom (d ++ [0xA])) -> lossy_decoding (g ++ [0xA] ++ encode_all (as_sent cr2 after)) (stream_text sc) -> regular sc -> gives nel lsps sc o ->
  exists y, o = y ++ 0xA :: after /\ forall z, gives nel lsps [Chunk (d ++ [0xA]) End] z -> z = y ++ [0xA].
Proof. exact damage_first_esc. Qed.
Print Assumptions C108_escape_first.
Theorem C108_escape_at_once : forall bom cr cr2 nel lsps before g after d, whole_lines before -> whole_lines after -> lossy_decoding g d -> ends_line nel lsps (d ++ [0xA]) ->
  forall x o, before <> [] -> preceded before -> preceded after -> lossy_decoding (with_damage bom cr cr2 before g after) x -> gives nel lsps [Chunk x End] o ->
  exists y, o = before ++ y ++ 0xA :: after /\ forall z, gives nel lsps [Chunk (0xA :: d ++ [0xA]) End] z -> z = 0xA :: y ++ [0xA].
Proof. exact damage_at_once_esc. Qed.
Print Assumptions C108_escape_at_once.
(** A line with a colour and with a sequence that is not finished: U+1B and U+5B. *)
Example C108_example_escape : let before := [0x61; 0xA] in let g := [0x1B; 0x5B; 0x31; 0x6D; 0x62; 0x1B; 0x5B] in let after := [0x63; 0xA] in let sc := [Chunk [0x61; 0xA; 0x1B; 0x5B; 0x31; 0x6D; 0x62; 0x1B] Active; Chunk [0x5B; 0xA; 0x63; 0xA] End] in
  whole_lines before /\ whole_lines after /\ lossy_decoding g g /\ ends_line false false (g ++ [0xA]) /\ settled false false (g ++ [0xA]) /\ lossy_decoding (with_damage false false false before g after) (stream_text sc) /\ regular sc /\
  gives false false sc [0x61; 0xA; 0x62; 0xA; 0x63; 0xA].
Proof.
  cbv zeta. split; [split; [apply basic_text_spec; vm_compute; reflexivity|split; [right; now exists [0x61]|repeat constructor]]|]. split; [split; [apply basic_text_spec; vm_compute; reflexivity|split; [right; now exists [0x63]|repeat constructor]]|].
  split; [apply utf8_lossy_exact; vm_compute; reflexivity|]. split; [apply (line_run false false [0x1B; 0x5B; 0x31; 0x6D; 0x62; 0x1B; 0x5B]); vm_compute; reflexivity|].
  split; [apply line_settled; repeat constructor; vm_compute; reflexivity|]. split; [apply utf8_lossy_exact; vm_compute; reflexivity|].
  split; [split; [intros cs [H|[H|[]]]; discriminate|left; discriminate]|]. exists [136; 136]%nat. do 3 eexists. split; [vm_compute; reflexivity|]. split; [eexists [_]; do 2 eexists; reflexivity|vm_compute; reflexivity].
Qed.

(** The lines may have colours. *)
Theorem C108_colour : forall bom cr cr2 nel lsps u1 before g u2 after d, coloured_lines u1 before -> coloured_lines u2 after -> lossy_decoding g d -> ends_line nel lsps (d ++ [0xA]) -> u1 <> [] ->
  Forall (fun c => is_assigned c = true) before -> Forall (fun c => is_assigned c = true) after ->
  forall sc o, settled nel lsps (d ++ [0xA]) -> lossy_decoding (with_damage bom cr cr2 u1 g u2) (stream_text sc) -> regular sc -> gives nel lsps sc o ->
  exists y, o = before ++ y ++ 0xA :: after /\ forall z, gives nel lsps [Chunk (0xA :: d ++ [0xA]) End] z -> z = 0xA :: y ++ [0xA].
Proof. exact colour_damage. Qed.
Print Assumptions C108_colour.
Theorem C108_colour_at_once : forall bom cr cr2 nel lsps u1 before g u2 after d, coloured_lines u1 before -> coloured_lines u2 after -> lossy_decoding g d -> ends_line nel lsps (d ++ [0xA]) -> u1 <> [] ->
  forall x o, preceded before -> preceded after -> lossy_decoding (with_damage bom cr cr2 u1 g u2) x -> gives nel lsps [Chunk x End] o ->
  exists y, o = before ++ y ++ 0xA :: after /\ forall z, gives nel lsps [Chunk (0xA :: d ++ [0xA]) End] z -> z = 0xA :: y ++ [0xA].
Proof. exact colour_damage_at_once. Qed.
Print Assumptions C108_colour_at_once.
(** A bold "a", a colour sequence cut off, a bold "c". *)
Example C108_example_colour : let u1 := [0x1B; 0x5B; 0x31; 0x6D; 0x61; 0x1B; 0x5B; 0x6D; 0xA] in let g := [0x62; 0x1B; 0x5B; 0x33] in let u2 := [0x1B; 0x5B; 0x31; 0x6D; 0x63; 0xA] in
  let sc := [Chunk [0x1B; 0x5B; 0x31; 0x6D; 0x61; 0x1B; 0x5B; 0x6D; 0xA; 0x62; 0x1B] Active; Chunk [0x5B; 0x33; 0xA; 0x1B; 0x5B; 0x31; 0x6D; 0x63; 0xA] End] in
  coloured_lines u1 [0x61; 0xA] /\ coloured_lines u2 [0x63; 0xA] /\ lossy_decoding g g /\ ends_line false false (g ++ [0xA]) /\ settled false false (g ++ [0xA]) /\ lossy_decoding (with_damage false false false u1 g u2) (stream_text sc) /\ regular sc /\
  gives false false sc [0x61; 0xA; 0x62; 0xA; 0x63; 0xA].
Proof.
  cbv zeta. assert (P1 : Forall SpecEscape.parameter [0x31]) by (apply Forall_cons; [split; discriminate|constructor]).
  split.
  { split; [apply (unc_sgr [0x31]); [exact P1|]; apply unc_char; [discriminate|]; apply (unc_sgr []); [constructor|]; apply unc_char; [discriminate|constructor]|]. split; [right; exists [0x1B; 0x5B; 0x31; 0x6D; 0x61; 0x1B; 0x5B; 0x6D]; reflexivity|].
    split; [apply basic_text_spec; vm_compute; reflexivity|split; [right; now exists [0x61]|repeat constructor]]. }
  split.
  { split; [apply (unc_sgr [0x31]); [exact P1|]; apply unc_char; [discriminate|]; apply unc_char; [discriminate|constructor]|]. split; [right; exists [0x1B; 0x5B; 0x31; 0x6D; 0x63]; reflexivity|].
    split; [apply basic_text_spec; vm_compute; reflexivity|split; [right; now exists [0x63]|repeat constructor]]. }
  split; [apply utf8_lossy_exact; vm_compute; reflexivity|]. split; [apply (line_run false false [0x62; 0x1B; 0x5B; 0x33]); vm_compute; reflexivity|].
  split; [apply line_settled; repeat constructor; vm_compute; reflexivity|]. split; [apply utf8_lossy_exact; vm_compute; reflexivity|].
  split; [split; [intros cs [H|[H|[]]]; discriminate|left; discriminate]|]. exists [136; 136]%nat. do 3 eexists. split; [vm_compute; reflexivity|]. split; [eexists [_]; do 2 eexists; reflexivity|vm_compute; reflexivity].
Qed.

(** The first line may be damaged. *)
Theorem C108_colour_first : forall cr2 nel lsps g u2 after d, coloured_lines u2 after -> lossy_decoding g d -> ends_line nel lsps (without_bom (d ++ [0xA])) -> Forall (fun c => is_assigned c = true) after ->
  forall sc o, settled nel lsps (without_bom (d ++ [0xA])) -> lossy_decoding (g ++ [0xA] ++ encode_all (as_sent cr2 u2)) (stream_text sc) -> regular sc -> gives nel lsps sc o ->
  exists y, o = y ++ 0xA :: after /\ forall z, gives nel lsps [Chunk (d ++ [0xA]) End] z -> z = y ++ [0xA].
Proof. exact colour_first. Qed.
Print Assumptions C108_colour_first.
Theorem C108_colour_first_at_once : forall cr2 nel lsps g u2 after d, coloured_lines u2 after -> lossy_decoding g d -> ends_line nel lsps (without_bom (d ++ [0xA])) ->
  forall x o, preceded after -> lossy_decoding (g ++ [0xA] ++ encode_all (as_sent cr2 u2)) x -> gives nel lsps [Chunk x End] o ->
  exists y, o = y ++ 0xA :: after /\ forall z, gives nel lsps [Chunk (d ++ [0xA]) End] z -> z = y ++ [0xA].
Proof. exact colour_first_at_once. Qed.
Print Assumptions C108_colour_first_at_once.
(** Reading may start at any byte of a text with colours, also in a colour sequence. *)
Theorem C108_colour_seek : forall bom cr nel lsps u t u2 l z g, uncoloured u t -> Forall (fun c => is_scalar c = true) t -> coloured_lines u2 l -> encode_all (stored bom cr u) = z ++ g ++ [0xA] ++ encode_all (as_sent cr u2) ->
  Forall (fun c => is_assigned c = true) t -> Forall (fun c => is_assigned c = true) l ->
  forall sc o, lossy_decoding (g ++ [0xA] ++ encode_all (as_sent cr u2)) (stream_text sc) -> regular sc -> gives nel lsps sc o -> exists y, o = y ++ 0xA :: l.
Proof. exact colour_seek. Qed.
Print Assumptions C108_colour_seek.
Theorem C108_colour_seek_at_once : forall bom cr nel lsps u t u2 l z g, uncoloured u t -> Forall (fun c => is_scalar c = true) t -> coloured_lines u2 l -> encode_all (stored bom cr u) = z ++ g ++ [0xA] ++ encode_all (as_sent cr u2) ->
  forall x o, preceded l -> lossy_decoding (g ++ [0xA] ++ encode_all (as_sent cr u2)) x -> gives nel lsps [Chunk x End] o -> exists y, o = y ++ 0xA :: l.
Proof. exact colour_seek_at_once. Qed.
Print Assumptions C108_colour_seek_at_once.
(** A text with colours is cut off after any byte, and another one is written behind it.  The
    lines left before the cut, and those after the first line of the other text, are read as
    they were, if it is clear that the other text does not go on with a colour sequence. *)
Theorem C108_colour_append : forall bom cr cr2 nel lsps u t p before r f wf u2 after b, uncoloured u t -> Forall (fun c => is_scalar c = true) t -> Forall (fun c => is_assigned c = true) t -> coloured_lines p before -> u = p ++ r ->
  uncoloured f wf -> Forall (fun c => is_scalar c = true) wf -> Forall (fun c => is_assigned c = true) wf -> coloured_lines u2 after -> Forall (fun c => is_assigned c = true) after ->
  cut_off bom cr u b -> survives bom cr p b -> new_start f b ->
  forall sc o, lossy_decoding (b ++ encode_all (as_sent cr2 (f ++ 0xA :: u2))) (stream_text sc) -> regular sc -> gives nel lsps sc o -> exists y, o = before ++ y ++ 0xA :: after.
Proof. exact colour_append. Qed.
Print Assumptions C108_colour_append.
Theorem C108_colour_append_at_once : forall bom cr cr2 nel lsps u t p before r f wf u2 after b, uncoloured u t -> Forall (fun c => is_scalar c = true) t -> coloured_lines p before -> preceded before -> u = p ++ r ->
  uncoloured f wf -> Forall (fun c => is_scalar c = true) wf -> coloured_lines u2 after -> preceded after -> cut_off bom cr u b -> survives bom cr p b -> new_start f b ->
  forall x o, lossy_decoding (b ++ encode_all (as_sent cr2 (f ++ 0xA :: u2))) x -> gives nel lsps [Chunk x End] o -> exists y, o = before ++ y ++ 0xA :: after.
Proof. exact colour_append_at_once. Qed.
Print Assumptions C108_colour_append_at_once.
(** A bold "b" after a line "a"; it is cut off in the first sequence, and a bold "c" and a line
    "d" follow.  Read from the middle of the sequence on, its rest is text. *)
Example C108_example_colour_append : let u := [0x61; 0xA; 0x1B; 0x5B; 0x31; 0x6D; 0x62; 0x1B; 0x5B; 0x6D; 0xA] in let b := [0x61; 0xA; 0x1B; 0x5B; 0x31] in let f := [0x1B; 0x5B; 0x31; 0x6D; 0x63; 0x1B; 0x5B; 0x6D] in
  uncoloured u [0x61; 0xA; 0x62; 0xA] /\ uncoloured f [0x63] /\ cut_off false false u b /\ survives false false [0x61; 0xA] b /\ new_start f b /\ gives false false [Chunk (b ++ f ++ [0xA; 0x64; 0xA]) End] [0x61; 0xA; 0x63; 0xA; 0x64; 0xA] /\
  encode_all (stored false false (u ++ [0x64; 0xA])) = [0x61; 0xA; 0x1B; 0x5B] ++ [0x31; 0x6D; 0x62; 0x1B; 0x5B; 0x6D] ++ [0xA] ++ encode_all (as_sent false [0x64; 0xA]) /\
  gives false false [Chunk [0x31; 0x6D; 0x62; 0x1B; 0x5B; 0x6D; 0xA; 0x64; 0xA] End] [0x31; 0x6D; 0x62; 0xA; 0x64; 0xA].
Proof.
  cbv zeta. assert (P1 : Forall SpecEscape.parameter [0x31]) by (apply Forall_cons; [split; discriminate|constructor]).
  split; [do 2 (apply unc_char; [discriminate|]); apply (unc_sgr [0x31]); [exact P1|]; apply unc_char; [discriminate|]; apply (unc_sgr []); [constructor|]; apply unc_char; [discriminate|exact unc_nil]|].
  split; [apply (unc_sgr [0x31]); [exact P1|]; apply unc_char; [discriminate|]; apply (unc_sgr []); [constructor|exact unc_nil]|].
  split; [exists [0x6D; 0x62; 0x1B; 0x5B; 0x6D; 0xA]; reflexivity|]. split; [exists [0x1B; 0x5B; 0x31]; reflexivity|]. split; [right; left; eexists; reflexivity|].
  split; [exists [136]%nat; do 3 eexists; split; [vm_compute; reflexivity|]; split; [eexists []; do 2 eexists; reflexivity|vm_compute; reflexivity]|].
  split; [reflexivity|]. exists [136]%nat; do 3 eexists; split; [vm_compute; reflexivity|]; split; [eexists []; do 2 eexists; reflexivity|vm_compute; reflexivity].
Qed.
(** Else not: when only the U+1B of a colour sequence was stored, and the next text begins
    with "]", then this text is lost. *)
Theorem C108_colour_append_refuted : exists u t p before r f u2 after b o, uncoloured u t /\ coloured_lines p before /\ u = p ++ r /\ Forall allowed f /\ uncoloured f f /\ coloured_lines u2 after /\
  cut_off false false u b /\ survives false false p b /\ gives false false [Chunk (b ++ encode_all (as_sent false (f ++ 0xA :: u2))) End] o /\ ~ exists y, o = before ++ y ++ 0xA :: after.
Proof.
  exists [0x61; 0xA; 0x1B; 0x5B; 0x31; 0x6D; 0x62; 0xA], [0x61; 0xA; 0x62; 0xA], [0x61; 0xA], [0x61; 0xA], [0x1B; 0x5B; 0x31; 0x6D; 0x62; 0xA], [0x5D], [0x64; 0xA], [0x64; 0xA], [0x61; 0xA; 0x1B], [0x61; 0xA; 0xA].
  assert (P1 : Forall SpecEscape.parameter [0x31]) by (apply Forall_cons; [split; discriminate|constructor]).
  assert (W : forall c, In c [0x61; 0x64] -> coloured_lines [c; 0xA] [c; 0xA]).
  { intros c K. split; [|split; [right; now exists [c]|]]; [destruct K as [<-|[<-|[]]]; do 2 (apply unc_char; [discriminate|]); exact unc_nil|]. split; [destruct K as [<-|[<-|[]]]; apply basic_text_spec; vm_compute; reflexivity|]. split; [right; now exists [c]|destruct K as [<-|[<-|[]]]; repeat constructor]. }
  split; [do 2 (apply unc_char; [discriminate|]); apply (unc_sgr [0x31]); [exact P1|]; do 2 (apply unc_char; [discriminate|]); exact unc_nil|].
  split; [apply W; now left|]. split; [reflexivity|]. split; [repeat constructor|]. split; [apply unc_char; [discriminate|exact unc_nil]|]. split; [apply W; right; now left|].
  split; [exists [0x5B; 0x31; 0x6D; 0x62; 0xA]; reflexivity|]. split; [exists [0x1B]; reflexivity|].
  split; [exists [136]%nat; do 3 eexists; split; [vm_compute; reflexivity|]; split; [eexists []; do 2 eexists; reflexivity|vm_compute; reflexivity]|].
  intros [y E]. apply (f_equal (@length N)) in E. rewrite !app_length in E. cbn in E. lia.
Qed.
Print Assumptions C108_colour_append_refuted.

(** With U+1B the damage spreads: the line after an unfinished OSC sequence is lost. *)
Theorem C108_escape_refuted : exists before g after d x o, whole_lines before /\ whole_lines after /\ lossy_decoding g d /\ preceded before /\ preceded after /\
  lossy_decoding (with_damage false false false before g after) x /\ gives false false [Chunk x End] o /\ ~ exists y, o = before ++ y ++ 0xA :: after.
Proof.
  exists [0x61; 0xA], [0x1B; 0x5D], [0x62; 0xA], [0x1B; 0x5D], [0x61; 0xA; 0x1B; 0x5D; 0xA; 0x62; 0xA], [0x61; 0xA; 0xA].
  split; [split; [apply basic_text_spec; vm_compute; reflexivity|split; [right; now exists [0x61]|repeat constructor]]|]. split; [split; [apply basic_text_spec; vm_compute; reflexivity|split; [right; now exists [0x62]|repeat constructor]]|].
  split; [apply utf8_lossy_exact; vm_compute; reflexivity|]. split; [apply PipelineFacts.prec_ok_spec; vm_compute; reflexivity|]. split; [apply PipelineFacts.prec_ok_spec; vm_compute; reflexivity|]. split; [apply utf8_lossy_exact; vm_compute; reflexivity|].
  split; [exists [136]%nat; do 3 eexists; split; [vm_compute; reflexivity|]; split; [eexists []; do 2 eexists; reflexivity|vm_compute; reflexivity]|].
  intros [y E]. apply (f_equal (@length N)) in E. rewrite !app_length in E. cbn in E. lia.
Qed.
Print Assumptions C108_escape_refuted.
