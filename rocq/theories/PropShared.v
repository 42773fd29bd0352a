(** C109: several writers over one stream. *)
From Coq Require Import NArith List Bool Lia.
From Verif Require Import Base Ucd Norm Chars TextUtils DocTable SpecText DocFacts TextFacts PipelineFacts Utf8 Input Output SpecRead SpecConv SpecWrite SpecMore SpecCat SpecCrash Shared SpecShared SharedProps SharedCut SpecEscape SpecColour ColourProps SpecDamage SpecSharedColour SharedColour SharedColourCut.
Import ListNotations.
Local Open Scope N_scope.

(** Any calls on any writers, in any order, and any answers of the stream: it has taken, in
    the order of the calls, the text of each call that succeeded and a beginning of the text
    of each call that failed. *)
Theorem C109_sent : forall crs p a h rs s, shared_ops (new_shared crs p a) h = (rs, s) -> Forall (fun x => plain_op (snd x)) h -> exists ps, went crs h rs ps /\ accepted s = p ++ concat ps.
Proof. exact shared_sent. Qed.
Print Assumptions C109_sent.

(** Once a write of a writer has failed, its later calls fail and send nothing. *)
Theorem C109_ended : forall crs p a h1 k o h2 rs s e o', shared_ops (new_shared crs p a) (h1 ++ (k, o) :: h2) = (rs, s) -> Forall (fun x => plain_op (snd x)) (h1 ++ (k, o) :: h2) -> is_write o = true -> nth_error rs (length h1) = Some (Some e) ->
  plain_op o' -> o' <> OpAbandon -> exists e', fst (shared_op s k o') = Some e' /\ accepted (snd (shared_op s k o')) = accepted s.
Proof. exact shared_ended. Qed.
Print Assumptions C109_ended.

(** If the stream takes all or nothing of each call, only the calls that succeeded count. *)
Theorem C109_whole : forall cr p a h rs s, shared_ops (new_shared (fun _ => cr) p a) h = (rs, s) -> Forall (fun x => plain_op (snd x)) h -> whole a ->
  accepted s = p ++ as_sent cr (concat (map op_text (succeeded h rs))).
Proof. exact shared_whole. Qed.
Print Assumptions C109_whole.

(** If each call writes complete lines, what succeeded is valid text. *)
Theorem C109_valid : forall crs p a h rs s, shared_ops (new_shared crs p a) h = (rs, s) -> Forall (fun x => plain_op (snd x)) h -> Forall (fun x => line_op (snd x)) h ->
  let t := concat (map op_text (succeeded h rs)) in string_ok t /\ line_terminated t.
Proof. exact shared_valid. Qed.
Print Assumptions C109_valid.

(** And it is what a reader reads. *)
Theorem C109_read : forall (bom cr : bool) a h rs s nel lsps sc o, shared_ops (new_shared (fun _ => cr) (if bom then [0xFEFF] else []) a) h = (rs, s) ->
  Forall (fun x => plain_op (snd x)) h -> Forall (fun x => line_op (snd x)) h -> whole a ->
  let t := concat (map op_text (succeeded h rs)) in Forall (fun c => is_assigned c = true) t -> stream_text sc = accepted s -> regular sc -> gives nel lsps sc o -> o = t.
Proof. exact shared_read. Qed.
Print Assumptions C109_read.
Theorem C109_read_at_once : forall (bom cr : bool) a h rs s nel lsps o, shared_ops (new_shared (fun _ => cr) (if bom then [0xFEFF] else []) a) h = (rs, s) ->
  Forall (fun x => plain_op (snd x)) h -> Forall (fun x => line_op (snd x)) h -> whole a ->
  let t := concat (map op_text (succeeded h rs)) in preceded t -> gives nel lsps [Chunk (accepted s) End] o -> o = t.
Proof. exact shared_read_at_once. Qed.
Print Assumptions C109_read_at_once.
(** Two writers; a call of the first one is refused by the stream, and its later call is not
    sent. *)
Example C109_example : let h := [(0%nat, OpWriteStr [0x65; 0x301; 0xA]); (1%nat, OpWriteStr [0x62; 0xA]); (0%nat, OpWriteStr [0x63; 0xA]); (1%nat, OpFlush); (0%nat, OpWriteStr [0x63; 0xA]); (1%nat, OpWriteStr [0x64; 0xA])] in
  let a := [WOk; WOk; WErr 0] in let r := shared_ops (new_shared (fun _ => true) [] a) h in
  Forall (fun x => plain_op (snd x)) h /\ Forall (fun x => line_op (snd x)) h /\ whole a /\ fst r = [None; None; Some EWInner; None; Some EWInner; None] /\
  accepted (snd r) = [0xE9; 0xD; 0xA; 0x62; 0xD; 0xA; 0x64; 0xD; 0xA] /\ concat (map op_text (succeeded h (fst r))) = [0xE9; 0xA; 0x62; 0xA; 0x64; 0xA] /\
  gives false false [Chunk (accepted (snd r)) End] [0xE9; 0xA; 0x62; 0xA; 0x64; 0xA].
Proof.
  cbv zeta. split; [repeat constructor|]. split; [repeat constructor; intro H; try discriminate; first [exists [0xE9]; vm_compute; reflexivity|exists [0x62]; vm_compute; reflexivity|exists [0x63]; vm_compute; reflexivity|exists [0x64]; vm_compute; reflexivity]|].
  split; [repeat constructor|]. split; [vm_compute; reflexivity|]. split; [vm_compute; reflexivity|]. split; [vm_compute; reflexivity|].
  exists [136]%nat. do 3 eexists. split; [vm_compute; reflexivity|]. split; [eexists []; do 2 eexists; reflexivity|vm_compute; reflexivity].
Qed.

(** The stream may also take only a part of a text, and the writers may end lines in different
    ways.  A reader gives all texts of the writes that succeeded; only behind a write that
    failed there may be damage, up to the end of the first line of the next one. *)
Theorem C109_cut : forall crs (bom nel lsps : bool) a h rs s, shared_ops (new_shared crs (if bom then [0xFEFF] else []) a) h = (rs, s) ->
  Forall (fun x => plain_op (snd x)) h -> Forall (fun x => line_op (snd x)) h ->
  forall sc o, Forall (fun x => Forall (fun c => is_assigned c = true) (op_text (snd x))) h -> stream_text sc = accepted s -> regular sc -> gives nel lsps sc o -> reads_lines true h rs o.
Proof. exact shared_cut_read. Qed.
Print Assumptions C109_cut.
Theorem C109_cut_at_once : forall crs (bom nel lsps : bool) a h rs s, shared_ops (new_shared crs (if bom then [0xFEFF] else []) a) h = (rs, s) ->
  Forall (fun x => plain_op (snd x)) h -> Forall (fun x => line_op (snd x)) h ->
  forall o, Forall (fun x => preceded (op_text (snd x))) h -> gives nel lsps [Chunk (accepted s) End] o -> reads_lines true h rs o.
Proof. exact shared_cut_at_once. Qed.
Print Assumptions C109_cut_at_once.
(** The first writer sends "a", a line end and "b" before it fails; the second one goes on with
    "c", a line end, "d" and a line end. *)
Example C109_example_cut : let h := [(0%nat, OpWriteStr [0x61; 0xA]); (0%nat, OpWriteStr [0x62; 0x78; 0xA]); (1%nat, OpWriteStr [0x63; 0xA; 0x64; 0xA]); (1%nat, OpWriteStr [0x65; 0xA])] in
  let a := [WOk; WErr 1] in let r := shared_ops (new_shared (fun k => Nat.eqb k 1) [] a) h in
  fst r = [None; Some EWInner; None; None] /\ accepted (snd r) = [0x61; 0xA; 0x62; 0x63; 0xD; 0xA; 0x64; 0xD; 0xA; 0x65; 0xD; 0xA] /\
  gives false false [Chunk (accepted (snd r)) End] [0x61; 0xA; 0x62; 0x63; 0xA; 0x64; 0xA; 0x65; 0xA].
Proof.
  cbv zeta. split; [vm_compute; reflexivity|]. split; [vm_compute; reflexivity|].
  exists [136]%nat. do 3 eexists. split; [vm_compute; reflexivity|]. split; [eexists []; do 2 eexists; reflexivity|vm_compute; reflexivity].
Qed.

(** Writers with colours: the stream gets what the successful calls show, in their order. *)
Theorem C109_colour_sent : forall cr p a h rs s, shared_ops (new_coloured cr p a) (calls h) = (rs, s) -> Forall (fun x => cop_ok (snd x)) h -> whole a ->
  accepted s = p ++ as_sent cr (shown_by (done h rs)).
Proof. exact coloured_whole. Qed.
Print Assumptions C109_colour_sent.
(** When each call writes complete lines, a reader gives the lines without the colours. *)
Theorem C109_colour_read : forall (bom cr : bool) a h rs s nel lsps sc o, shared_ops (new_coloured cr (if bom then [0xFEFF] else []) a) (calls h) = (rs, s) ->
  Forall (fun x => cop_ok (snd x)) h -> Forall (fun x => line_cop (snd x)) h -> whole a ->
  let t := text_by (done h rs) in Forall (fun c => is_assigned c = true) t -> stream_text sc = accepted s -> regular sc -> gives nel lsps sc o -> o = t.
Proof. exact coloured_read. Qed.
Print Assumptions C109_colour_read.
(** Two writers; the second call of the first one is refused by the stream. *)
Example C109_example_colour : let h := [(0%nat, CWrite (mkpainted [] [([0x31], [0x68; 0x69]); ([0x30], [0xA])])); (1%nat, CText [0x61; 0xA]); (0%nat, CText [0x62; 0xA]); (1%nat, CFlush); (1%nat, CText [0x63; 0xA])] in
  let a := [WOk; WOk; WErr 0] in let r := shared_ops (new_coloured false [] a) (calls h) in
  Forall (fun x => cop_ok (snd x)) h /\ Forall (fun x => line_cop (snd x)) h /\ whole a /\ fst r = [None; None; Some EWInner; None; None] /\
  accepted (snd r) = [0x1B; 0x5B; 0x31; 0x6D; 0x68; 0x69; 0x1B; 0x5B; 0x30; 0x6D; 0xA; 0x61; 0xA; 0x63; 0xA] /\ text_by (done h (fst r)) = [0x68; 0x69; 0xA; 0x61; 0xA; 0x63; 0xA] /\
  gives false false [Chunk (accepted (snd r)) End] [0x68; 0x69; 0xA; 0x61; 0xA; 0x63; 0xA].
Proof.
  assert (TXT : forall c, In c [0x61; 0x62; 0x63] -> cop_ok (CText [c; 0xA]) /\ line_cop (CText [c; 0xA])).
  { intros c K. assert (W : whole_lines [c; 0xA]).
    { split; [|split; [right; now exists [c]|]]; destruct K as [<-|[<-|[<-|[]]]]; try (apply basic_text_spec; vm_compute; reflexivity); repeat constructor. }
    split; [destruct K as [<-|[<-|[<-|[]]]]; (split; [discriminate|vm_compute; reflexivity])|]. unfold line_cop, coloured_lines. cbn [cop_shown cop_pieces concat]. rewrite app_nil_r.
    split; [|split; [right; now exists [c]|exact W]]. apply unc_char; [destruct K as [<-|[<-|[<-|[]]]]; discriminate|]. apply unc_char; [discriminate|exact unc_nil]. }
  assert (FL : line_cop CFlush) by (unfold line_cop; cbn; split; [exact unc_nil|]; split; [now left|exact no_lines]).
  cbv zeta. split; [|split; [|split]].
  - apply Forall_cons; [split|].
    + apply Forall_cons; [intros []|]. apply Forall_cons; [intros [K|[K|[]]]; discriminate|]. apply Forall_cons; [intros [K|[]]; discriminate|constructor].
    + apply Forall_cons; [|apply Forall_cons; [|constructor]]; (apply Forall_cons; [|constructor]); split; discriminate.
    + apply Forall_cons; [apply TXT; now left|]. apply Forall_cons; [apply TXT; right; now left|]. apply Forall_cons; [exact I|]. apply Forall_cons; [apply TXT; right; right; now left|constructor].
  - apply Forall_cons; [|apply Forall_cons; [apply TXT; now left|]; apply Forall_cons; [apply TXT; right; now left|]; apply Forall_cons; [exact FL|]; apply Forall_cons; [apply TXT; right; right; now left|constructor]].
    split; [|split].
    + change (uncoloured (sgr [0x31] ++ [0x68; 0x69] ++ sgr [0x30] ++ [0xA]) [0x68; 0x69; 0xA]). apply unc_sgr; [repeat constructor; discriminate|]. do 2 (apply unc_char; [discriminate|]). apply unc_sgr; [repeat constructor; discriminate|]. apply unc_char; [discriminate|exact unc_nil].
    + right. now exists (sgr [0x31] ++ [0x68; 0x69] ++ sgr [0x30]).
    + change (whole_lines [0x68; 0x69; 0xA]). split; [apply basic_text_spec; vm_compute; reflexivity|]. split; [right; now exists [0x68; 0x69]|repeat constructor].
  - repeat constructor.
  - match goal with |- ?x = _ /\ _ => assert (E : x = [None; None; Some EWInner; None; None]) by (vm_compute; reflexivity) end. split; [exact E|]. clear E.
    match goal with |- ?x = _ /\ _ => assert (E : x = [0x1B; 0x5B; 0x31; 0x6D; 0x68; 0x69; 0x1B; 0x5B; 0x30; 0x6D; 0xA; 0x61; 0xA; 0x63; 0xA]) by (vm_compute; reflexivity) end. split; [exact E|]. rewrite E.
    split; [vm_compute; reflexivity|]. exists [136]%nat. do 3 eexists. split; [vm_compute; reflexivity|]. split; [eexists []; do 2 eexists; reflexivity|vm_compute; reflexivity].
Qed.

(** Whatever the stream takes, it has got what each successful call shows and a beginning of
    what each failed call shows. *)
Theorem C109_colour_parts : forall cr p a h rs s, shared_ops (new_coloured cr p a) (calls h) = (rs, s) -> Forall (fun x => cop_ok (snd x)) h -> exists ps, cwent cr h rs ps /\ accepted s = p ++ concat ps.
Proof. exact coloured_parts. Qed.
Print Assumptions C109_colour_parts.
(** When each call writes complete lines and begins with a colour sequence or a line end, a
    reader gives all texts of the successful calls; only behind a failed one there may be
    damage, up to the end of the first line of the next one. *)
Theorem C109_colour_cut : forall (cr bom nel lsps : bool) a h rs s, shared_ops (new_coloured cr (if bom then [0xFEFF] else []) a) (calls h) = (rs, s) ->
  Forall (fun x => cop_ok (snd x)) h -> Forall (fun x => line_cop (snd x)) h -> Forall (fun x => fresh_start (cop_shown (snd x))) h ->
  forall sc o, Forall (fun x => Forall (fun c => is_assigned c = true) (concat (cop_pieces (snd x)))) h -> stream_text sc = accepted s -> regular sc -> gives nel lsps sc o -> creads_lines true h rs o.
Proof. exact coloured_cut_read. Qed.
Print Assumptions C109_colour_cut.
Theorem C109_colour_cut_at_once : forall (cr bom nel lsps : bool) a h rs s, shared_ops (new_coloured cr (if bom then [0xFEFF] else []) a) (calls h) = (rs, s) ->
  Forall (fun x => cop_ok (snd x)) h -> Forall (fun x => line_cop (snd x)) h -> Forall (fun x => fresh_start (cop_shown (snd x))) h ->
  forall o, Forall (fun x => preceded (concat (cop_pieces (snd x)))) h -> gives nel lsps [Chunk (accepted s) End] o -> creads_lines true h rs o.
Proof. exact coloured_cut_at_once. Qed.
Print Assumptions C109_colour_cut_at_once.
(** The first writer leaves a U+1B; the second one goes on with a colour, "]b" and a line end,
    and nothing is lost. *)
Example C109_example_colour_cut : let p t := CWrite (mkpainted [] [([0x31], t)]) in
  let h := [(0%nat, p [0x61; 0xA]); (0%nat, p [0x78; 0xA]); (1%nat, p [0x5D; 0x62; 0xA]); (1%nat, p [0x63; 0xA])] in
  let r := shared_ops (new_coloured false [] [WOk; WErr 1]) (calls h) in
  Forall (fun x => cop_ok (snd x)) h /\ Forall (fun x => line_cop (snd x)) h /\ Forall (fun x => fresh_start (cop_shown (snd x))) h /\ fst r = [None; Some EWInner; None; None] /\
  accepted (snd r) = [0x1B; 0x5B; 0x31; 0x6D; 0x61; 0xA; 0x1B; 0x1B; 0x5B; 0x31; 0x6D; 0x5D; 0x62; 0xA; 0x1B; 0x5B; 0x31; 0x6D; 0x63; 0xA] /\
  gives false false [Chunk (accepted (snd r)) End] [0x61; 0xA; 0x5D; 0x62; 0xA; 0x63; 0xA].
Proof.
  assert (P1 : Forall parameter [0x31]) by (apply Forall_cons; [split; discriminate|constructor]).
  assert (TXT : forall t, In t [[0x61; 0xA]; [0x78; 0xA]; [0x5D; 0x62; 0xA]; [0x63; 0xA]] -> let o := CWrite (mkpainted [] [([0x31], t)]) in cop_ok o /\ line_cop o /\ fresh_start (cop_shown o)).
  { intros t K. assert (LT : exists v, t = v ++ [0xA]) by (destruct K as [<-|[<-|[<-|[<-|[]]]]]; [now exists [0x61]|now exists [0x78]|now exists [0x5D; 0x62]|now exists [0x63]]).
    assert (EP : pipeline t = t) by (destruct K as [<-|[<-|[<-|[<-|[]]]]]; vm_compute; reflexivity).
    assert (NE : ~ In 0x1B t) by (destruct K as [<-|[<-|[<-|[<-|[]]]]]; intro K; repeat (destruct K as [K|K]; [discriminate K|]); exact K).
    assert (W : whole_lines t).
    { split; [|split; [right; exact LT|]]; destruct K as [<-|[<-|[<-|[<-|[]]]]]; try (apply basic_text_spec; vm_compute; reflexivity); repeat constructor. }
    assert (ES : cop_shown (CWrite (mkpainted [] [([0x31], t)])) = sgr [0x31] ++ t) by (cbn [cop_shown]; unfold shown, join; cbn [lead rest map flat_map fst snd]; rewrite EP, app_nil_r; reflexivity).
    assert (ET : concat (cop_pieces (CWrite (mkpainted [] [([0x31], t)]))) = t) by (cbn [cop_pieces]; unfold pieces; cbn [lead rest map concat snd]; rewrite EP, app_nil_r; reflexivity).
    cbv zeta. split; [|split].
    - split; [apply Forall_cons; [intros []|]; apply Forall_cons; [exact NE|constructor]|]. apply Forall_cons; [exact P1|constructor].
    - unfold line_cop. rewrite ES, ET. split; [|split; [|exact W]].
      + apply unc_sgr; [exact P1|]. clear - NE. induction t as [|c t IH]; [exact unc_nil|]. apply unc_char; [intros ->; apply NE; now left|]. apply IH. intro K. apply NE. now right.
      + right. destruct LT as [v ->]. exists (sgr [0x31] ++ v). now rewrite app_assoc.
    - rewrite ES. now right. }
  cbv zeta. split; [|split; [|split; [|split; [|split]]]].
  - repeat (apply Forall_cons; [apply TXT; cbn; tauto|]). constructor.
  - repeat (apply Forall_cons; [apply TXT; cbn; tauto|]). constructor.
  - repeat (apply Forall_cons; [apply TXT; cbn; tauto|]). constructor.
  - vm_compute. reflexivity.
  - vm_compute. reflexivity.
  - exists [136]%nat. do 3 eexists. split; [vm_compute; reflexivity|]. split; [eexists []; do 2 eexists; reflexivity|vm_compute; reflexivity].
Qed.

(** Else, if the stream takes a part of a text with colours before it fails, what the other writers
    send can be lost: here the first writer leaves a U+1B, and the second one goes on with "]"
    and two lines; its calls succeed, and a reader gives none of them. *)
Theorem C109_colour_cut_refuted : exists h s, Forall (fun x => cop_ok (snd x)) h /\ Forall (fun x => line_cop (snd x)) h /\ shared_ops (new_coloured false [] [WOk; WErr 1]) (calls h) = ([None; Some EWInner; None; None], s) /\
  map snd (skipn 2 h) = [CText [0x5D; 0x61; 0xA]; CText [0x62; 0xA]] /\ gives false false [Chunk (accepted s) End] [0x61; 0xA; 0xA].
Proof.
  set (h := [(0%nat, CText [0x61; 0xA]); (0%nat, CWrite (mkpainted [] [([0x31], [0x68; 0x69]); ([0x30], [0xA])])); (1%nat, CText [0x5D; 0x61; 0xA]); (1%nat, CText [0x62; 0xA])]).
  exists h, (snd (shared_ops (new_coloured false [] [WOk; WErr 1]) (calls h))).
  assert (TXT : forall t, In t [[0x61; 0xA]; [0x5D; 0x61; 0xA]; [0x62; 0xA]] -> cop_ok (CText t) /\ line_cop (CText t)).
  { intros t K. assert (LT : line_terminated t) by (destruct K as [<-|[<-|[<-|[]]]]; right; [now exists [0x61]|now exists [0x5D; 0x61]|now exists [0x62]]). assert (W : whole_lines t).
    { split; [|split; [exact LT|]]; destruct K as [<-|[<-|[<-|[]]]]; try (apply basic_text_spec; vm_compute; reflexivity); repeat constructor. }
    split; [destruct K as [<-|[<-|[<-|[]]]]; (split; [discriminate|vm_compute; reflexivity])|]. unfold line_cop, coloured_lines. cbn [cop_shown cop_pieces concat]. rewrite app_nil_r.
    split; [|now split]. destruct K as [<-|[<-|[<-|[]]]]; repeat (apply unc_char; [discriminate|]); exact unc_nil. }
  split; [|split; [|split; [|split]]].
  - apply Forall_cons; [apply TXT; now left|]. apply Forall_cons; [split|].
    + apply Forall_cons; [intros []|]. apply Forall_cons; [intros [K|[K|[]]]; discriminate|]. apply Forall_cons; [intros [K|[]]; discriminate|constructor].
    + apply Forall_cons; [|apply Forall_cons; [|constructor]]; (apply Forall_cons; [|constructor]); split; discriminate.
    + apply Forall_cons; [apply TXT; right; now left|]. apply Forall_cons; [apply TXT; right; right; now left|constructor].
  - apply Forall_cons; [apply TXT; now left|]. apply Forall_cons; [|apply Forall_cons; [apply TXT; right; now left|]; apply Forall_cons; [apply TXT; right; right; now left|constructor]].
    split; [|split].
    + change (uncoloured (sgr [0x31] ++ [0x68; 0x69] ++ sgr [0x30] ++ [0xA]) [0x68; 0x69; 0xA]). apply unc_sgr; [repeat constructor; discriminate|]. do 2 (apply unc_char; [discriminate|]). apply unc_sgr; [repeat constructor; discriminate|]. apply unc_char; [discriminate|exact unc_nil].
    + right. now exists (sgr [0x31] ++ [0x68; 0x69] ++ sgr [0x30]).
    + change (whole_lines [0x68; 0x69; 0xA]). split; [apply basic_text_spec; vm_compute; reflexivity|]. split; [right; now exists [0x68; 0x69]|repeat constructor].
  - assert (E : fst (shared_ops (new_coloured false [] [WOk; WErr 1]) (calls h)) = [None; Some EWInner; None; None]) by (vm_compute; reflexivity). rewrite <- E. apply surjective_pairing.
  - reflexivity.
  - assert (E : accepted (snd (shared_ops (new_coloured false [] [WOk; WErr 1]) (calls h))) = [0x61; 0xA; 0x1B; 0x5D; 0x61; 0xA; 0x62; 0xA]) by (vm_compute; reflexivity). rewrite E.
    exists [136]%nat. do 3 eexists. split; [vm_compute; reflexivity|]. split; [eexists []; do 2 eexists; reflexivity|vm_compute; reflexivity].
Qed.
Print Assumptions C109_colour_cut_refuted.

(** With lines written in pieces the stream may get text that is not Basic Text, although all
    calls succeed and each writer has written Basic Text. *)
Theorem C109_pieces_refuted : exists h s, (forall k, string_ok (written_by k h) /\ line_terminated (written_by k h)) /\
  shared_ops (new_shared (fun _ => false) [] []) h = (map (fun _ => None) h, s) /\ ~ string_ok (accepted s).
Proof.
  set (h := [(1%nat, OpWriteStr [0x78; 0xA]); (0%nat, OpWriteStr [0x65]); (1%nat, OpWriteStr [0x301; 0xA]); (0%nat, OpWriteStr [0xA]); (0%nat, OpClose); (1%nat, OpClose)]).
  exists h, (snd (shared_ops (new_shared (fun _ => false) [] []) h)). split; [|split].
  - assert (E : forall k, written_by k h = match k with O => [0x65; 0xA] | 1%nat => [0x78; 0xA; 0x301; 0xA] | _ => [] end) by (intros [|[|k]]; vm_compute; reflexivity).
    intro k. rewrite E. destruct k as [|[|k]]; (split; [apply basic_text_spec; vm_compute; reflexivity|]); [right; now exists [0x65]|right; now exists [0x78; 0xA; 0x301]|now left].
  - assert (E : fst (shared_ops (new_shared (fun _ => false) [] []) h) = map (fun _ => None) h) by (vm_compute; reflexivity). rewrite <- E. apply surjective_pairing.
  - assert (E : accepted (snd (shared_ops (new_shared (fun _ => false) [] []) h)) = [0x78; 0xA; 0x65; 0x301; 0xA; 0xA]) by (vm_compute; reflexivity). rewrite E. intro K. apply basic_text_spec in K. vm_compute in K. discriminate.
Qed.
Print Assumptions C109_pieces_refuted.
